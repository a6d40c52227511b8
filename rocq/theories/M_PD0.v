(** PointData in zero dimensions: scr/liton_point_data/PointData_0D.hpp. *)

From Coq Require Import ZArith List Bool String.
From Verif Require Import Base M_Loop M_Heap.
Import ListNotations.
Open Scope Z_scope.

Section PD0.
Context {V : Type}.
(** the template parameter [_N] *)
Variable N : Z.
(** [_CHECK_POINTDATA_RANGE] is defined *)
Variable chk : bool.

(** PointData_0D.hpp:32-39: the member array [_NUMT pt0[_N]].  The member array
    lies inside the object, no heap memory is used. *)
Record pd0 := mkPD0 { p0_pt0 : list (cell V) }.

(** PointData_0D.hpp:74-81, the constructor: the elements stay indeterminate. *)
Definition ctor0 : res pd0 :=
  if N =? 0 then Err ENZero else Ok (mkPD0 (repeat CUndef (Z.to_nat N))).

(** PointData_0D.hpp:61-71, [check_n].  The message text "out of N range"
    differs from the other headers; the same constructor is used. *)
Definition check_n0 (n : Z) : res unit :=
  if chk then
    if n >=? N then let* mx := isub (u2i N) 1 in Err (EN n mx) else Ok tt
  else Ok tt.

(** PointData_0D.hpp:18-29, [DIM::check_d]: no dimension number is valid. *)
Definition check_d0 (d : Z) : res unit :=
  if chk then (if 0 <=? d then Err (EDim d (-1)) else Ok tt) else Ok tt.

(** PointData_0D.hpp:54-58, [operator()] used as an rvalue. *)
Definition read0 (o : pd0) (n : Z) : res (cell V) :=
  let* _ := check_n0 n in arr_get (p0_pt0 o) n.

(** PointData_0D.hpp:49-53, [operator()] used as the target of an assignment. *)
Definition write0 (o : pd0) (n : Z) (v : V) : res pd0 :=
  let* _ := check_n0 n in
  let* l := arr_set (p0_pt0 o) n (CVal v) in Ok (mkPD0 l).

(** PointData_0D.hpp:93-102, [disp_data]. *)
Definition disp_data0 (o : pd0) : M (list (tok V)) unit :=
  for_uint 0 N (fun n =>
    put_cell (arr_get (p0_pt0 o) n) ;;;
    put (TStr ", ")).

(** ** Programs on one array *)

(** One statement of a client: [x = a(n)] or [a(n) = v]. *)
Inductive op0 := Read0 (n : Z) | Write0 (n : Z) (v : V).

(** What the client sees; [Got None]: an element never written. *)
Inductive result0 := Got (v : option V) | Stored | Threw (e : exn).

(** One statement; [None] is undefined behaviour.  Reading an element never
    written is reported, not stopped (as in M_World.v). *)
Definition step0 (o : pd0) (c : op0) : option (pd0 * result0) :=
  match c with
  | Read0 n =>
      match read0 o n with
      | Ok (CVal v) => Some (o, Got (Some v))
      | Ok CUndef => Some (o, Got None)
      | Ok _ => None
      | Err e => Some (o, Threw e)
      | UB => None
      end
  | Write0 n v =>
      match write0 o n v with
      | Ok o' => Some (o', Stored)
      | Err e => Some (o, Threw e)
      | UB => None
      end
  end.

Fixpoint exec0 (o : pd0) (h : list op0) : option (pd0 * list result0) :=
  match h with
  | [] => Some (o, [])
  | c :: h' =>
      match step0 o c with
      | Some (o', r) =>
          match exec0 o' h' with Some (o'', rs) => Some (o'', r :: rs) | None => None end
      | None => None
      end
  end.

End PD0.

Arguments op0 V : clear implicits.
Arguments result0 V : clear implicits.
