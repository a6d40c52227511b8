(** Memory: the blocks created by [new T[k]] and the pointers into them.

    This file models the C++ memory the four PointData headers rely on, not a
    function of /repo.  Simplifications: one cell holds one object of element
    type or one pointer; element types are trivially default constructible (as
    [int], [float], [double] are), so that [new T[k]] leaves the cells
    indeterminate; copying an indeterminate element copies "indeterminate" (it
    is undefined only to print it). *)

From Coq Require Import ZArith List Bool String.
From Verif Require Import Base M_Loop.
Import ListNotations.
Open Scope Z_scope.

(** A pointer value: null, cell [off] of block [b], or indeterminate. *)
Inductive ptr := Null | Ptr (b : nat) (off : Z) | Wild.

Definition is_null (p : ptr) : bool := match p with Null => true | _ => false end.

Inductive cell (V : Type) := CUndef | CVal (v : V) | CPtr (p : ptr).
Arguments CUndef {V}.
Arguments CVal {V} v.
Arguments CPtr {V} p.

(** [blocks]: all blocks ever allocated, [None] once deleted.
    [fails k]: the [k]-th request for memory fails ([std::bad_alloc]); it is
    an arbitrary function, so theorems hold for every pattern of failures.
    [tick]: number of requests so far. *)
Record mem (V : Type) := mkMem {
  blocks : list (option (list (cell V)));
  fails : nat -> bool;
  tick : nat }.
Arguments mkMem {V} blocks fails tick.
Arguments blocks {V} m.
Arguments fails {V} m _.
Arguments tick {V} m.

Section Heap.
Context {V : Type}.

(** The cells of a live block. *)
Definition block (m : mem V) (b : nat) : option (list (cell V)) :=
  match nth_error (blocks m) b with
  | Some (Some cs) => Some cs
  | _ => None
  end.

Fixpoint upd {A} (l : list A) (k : nat) (x : A) : list A :=
  match l, k with
  | [], _ => []
  | _ :: t, O => x :: t
  | h :: t, S k' => h :: upd t k' x
  end.

Definition set_block (m : mem V) (b : nat) (x : option (list (cell V))) : mem V :=
  mkMem (upd (blocks m) b x) (fails m) (tick m).

(** [new T[len]]. *)
Definition hnew (len : Z) : M (mem V) ptr :=
  fun m =>
    if fails m (tick m) then Thr (mkMem (blocks m) (fails m) (S (tick m))) EBadAlloc
    else Ret (mkMem (blocks m ++ [Some (repeat CUndef (Z.to_nat len))])
                    (fails m) (S (tick m)))
             (Ptr (List.length (blocks m)) 0).

(** [delete[] p]: null is allowed; otherwise [p] must be the value returned by
    [new] for a block that is still alive. *)
Definition hdelete (p : ptr) : M (mem V) unit :=
  fun m => match p with
           | Null => Ret m tt
           | Ptr b off =>
               if off =? 0 then
                 match block m b with
                 | Some _ => Ret (set_block m b None) tt
                 | None => Undef
                 end
               else Undef
           | Wild => Undef
           end.

(** [p + k]: defined inside the block and one past its end. *)
Definition padd (m : mem V) (p : ptr) (k : Z) : res ptr :=
  match p with
  | Null => if k =? 0 then Ok Null else UB
  | Ptr b off =>
      match block m b with
      | Some cs =>
          if (0 <=? off + k) && (off + k <=? Z.of_nat (List.length cs))
          then Ok (Ptr b (off + k)) else UB
      | None => UB
      end
  | Wild => UB
  end.

(** [p[k]] as an lvalue: [p + k] must point at a cell. *)
Definition pidx (m : mem V) (p : ptr) (k : Z) : res ptr :=
  match p with
  | Ptr b off =>
      match block m b with
      | Some cs =>
          if (0 <=? off + k) && (off + k <? Z.of_nat (List.length cs))
          then Ok (Ptr b (off + k)) else UB
      | None => UB
      end
  | _ => UB
  end.

Definition load (m : mem V) (p : ptr) : res (cell V) :=
  match p with
  | Ptr b off =>
      match block m b with
      | Some cs =>
          if 0 <=? off then
            match nth_error cs (Z.to_nat off) with Some c => Ok c | None => UB end
          else UB
      | None => UB
      end
  | _ => UB
  end.

Definition store (p : ptr) (c : cell V) : M (mem V) unit :=
  fun m => match p with
           | Ptr b off =>
               match block m b with
               | Some cs =>
                   if (0 <=? off) && (off <? Z.of_nat (List.length cs))
                   then Ret (set_block m b (Some (upd cs (Z.to_nat off) c))) tt
                   else Undef
               | None => Undef
               end
           | _ => Undef
           end.

(** Lvalue to rvalue conversion of a cell that must hold a pointer. *)
Definition load_ptr (m : mem V) (p : ptr) : res ptr :=
  let* c := load m p in
  match c with CPtr q => Ok q | _ => UB end.

(** Pure computations that look at memory, inside a stateful computation. *)
Definition gets {A} (f : mem V -> res A) : M (mem V) A := fun m => lift (f m) m.

End Heap.

(** Subscript of a member array [T pt0[_N]] with an [unsigned] subscript. *)
Definition arr_get {A} (l : list A) (n : Z) : res A :=
  if 0 <=? n then
    match nth_error l (Z.to_nat n) with Some x => Ok x | None => UB end
  else UB.

Definition arr_set {A} (l : list A) (n : Z) (x : A) : res (list A) :=
  if (0 <=? n) && (n <? Z.of_nat (List.length l)) then Ok (upd l (Z.to_nat n) x) else UB.

(** What the [disp] functions write into their [std::ostringstream]: text,
    integers and elements.  How a number is formatted is not modelled. *)
Inductive tok (V : Type) := TStr (s : string) | TInt (z : Z) | TVal (v : V) | TEndl.
Arguments TStr {V} s.
Arguments TInt {V} z.
Arguments TVal {V} v.
Arguments TEndl {V}.

(** [displog << t] *)
Definition put {V} (t : tok V) : M (list (tok V)) unit := fun l => Ret (l ++ [t]) tt.

(** [displog << (lvalue)]: printing an indeterminate element is undefined. *)
Definition put_cell {V} (c : res (cell V)) : M (list (tok V)) unit :=
  do* x := lift c in
  match x with
  | CVal v => put (TVal v)
  | _ => undef
  end.
