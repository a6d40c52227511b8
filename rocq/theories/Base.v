(** Machine arithmetic, results and sequencing used by every model file.

    This file does not model a particular function of /repo.  It fixes the
    reading of the C++ language constructs the sources use:
    - [int] is 32 bit two's complement and signed overflow is undefined
      behaviour, [unsigned] is 32 bit and wraps (all of scr/liton_point_data and
      scr/liton_ordered_tec are written with these two types);
    - [static_cast<int>(unsigned)] reinterprets the bits
      (PointData_1D.hpp:45 and :182, for example);
    - a thrown [std::runtime_error] is a value of type [exn]: one constructor
      for each throw site text, with the values that are printed into it;
    - undefined behaviour is a result of its own and is never equal to a
      normal or exceptional result. *)

From Coq Require Import ZArith List Bool Lia String.
Import ListNotations.
Open Scope Z_scope.

(** ** Machine integers *)

Notation INT_MAX := 2147483647%Z (only parsing).
Notation INT_MIN := (-2147483648)%Z (only parsing).
Notation UINT_MOD := 4294967296%Z (only parsing).

Definition in_int (z : Z) : Prop := INT_MIN <= z <= INT_MAX.
Definition in_uint (z : Z) : Prop := 0 <= z < UINT_MOD.

Definition in_intb (z : Z) : bool := (INT_MIN <=? z) && (z <=? INT_MAX).

(** ** Exceptions: one constructor for each message text thrown in /repo/scr *)

Inductive exn : Type :=
| EDim (d : Z) (dmax : Z)              (* "DIM is out of range: d range:[0,dmax]"   PointData_1D.hpp:29 *)
| EOverlapNotFound                     (* "overlap not found"                       PointData_1D.hpp:77 *)
| ERangeC (d ii b l : Z)               (* "<ijk> is out of range: ii range:[b,l]"   PointData_1D.hpp:95 *)
| ERangeH (d ii off b l e : Z)         (* "<ijk> is out of range: ii(<NP>) range:[b-1(P),b,l,e(N)]" PointData_1D.hpp:100 *)
| EN (n nmax : Z)                      (* "N is out of range: n range:[0,nmax]"     PointData_1D.hpp:310 *)
| EFlagCenter (d : Z)                  (* "dim[d]: flag must be [C] when location is [center]"     PointData_1D.hpp:322 *)
| EFlagHalf (d : Z)                    (* "dim[d]: flag must be [N] or [P] when location is [half]" PointData_1D.hpp:326 *)
| ENoData                              (* "data do not exist"                       PointData_1D.hpp:336 *)
| ENZero                               (* "N is not allowed to be zero"             PointData_1D.hpp:347 *)
| EAllocNotEmpty                       (* "allocating memory do not allowed when data is not empty" PointData_1D.hpp:383 *)
| EClearEmpty                          (* "clearing data do not allowed when data is empty"         PointData_1D.hpp:427 *)
| ENoMem                               (* "no more memory for allocating"           PointData_1D.hpp:404 *)
| EInZero (d : Z)                      (* "dim[d]: size_in can not be zero when size_n or size_p is non-zero" PointData_1D.hpp:224 *)
| ECopyOverlap                         (* "copy and write zone overlap"             PointData_1D.hpp:485 *)
| EZoneTooBig                          (* "zone number is too big"                  PointData_1D.hpp:511 *)
| EFileSize                            (* "N_file is bigger than N_in or equal to 0" PointData_1D.hpp:517 *)
| EVarNotFound                         (* "error when finding variables ..."        PointData_1D.hpp:522 *)
| EOpen                                (* "error when opening file: ..."            PointData_1D.hpp:531 *)
| ERead                                (* "error when reading file ..."             PointData_1D.hpp:548 *)
| ETecType                             (* "tec_file data type error"                PointData_1D.hpp:571 *)
| EBadAlloc                            (* std::bad_alloc raised by new[], caught at PointData_1D.hpp:402 *)
| EUser (code : Z)                     (* thrown by a user supplied loop body *)
| ETec (msg : string).                 (* messages of ordered_tec.cpp, verbatim prefix *)

(** ** Results without state *)

Inductive res (A : Type) : Type :=
| Ok (a : A)
| Err (e : exn)
| UB.
Arguments Ok {A} a.
Arguments Err {A} e.
Arguments UB {A}.

Definition rbind {A B} (x : res A) (f : A -> res B) : res B :=
  match x with
  | Ok a => f a
  | Err e => Err e
  | UB => UB
  end.

Notation "'let*' x := e 'in' k" := (rbind e (fun x => k))
  (at level 200, x pattern, right associativity).

(** Signed arithmetic: undefined when the exact result does not fit [int]. *)
Definition ck (z : Z) : res Z := if in_intb z then Ok z else UB.
Definition iadd (a b : Z) : res Z := ck (a + b).
Definition isub (a b : Z) : res Z := ck (a - b).
Definition imul (a b : Z) : res Z := ck (a * b).
Definition ineg (a : Z) : res Z := ck (- a).

(** Unsigned arithmetic wraps. *)
Definition uwrap (z : Z) : Z := z mod UINT_MOD.
Definition uadd (a b : Z) : Z := uwrap (a + b).
Definition umul (a b : Z) : Z := uwrap (a * b).

(** [static_cast<int>(u)] for an unsigned value and the implicit conversion
    of an [int] to [unsigned]. *)
Definition u2i (u : Z) : Z := if u <=? INT_MAX then u else u - UINT_MOD.
Definition i2u (i : Z) : Z := uwrap i.

(** ** Results with state: an exception keeps the state reached so far *)

Inductive out (S A : Type) : Type :=
| Ret (s : S) (a : A)
| Thr (s : S) (e : exn)
| Undef.
Arguments Ret {S A} s a.
Arguments Thr {S A} s e.
Arguments Undef {S A}.

Definition M (S A : Type) : Type := S -> out S A.

Definition ret {S A} (a : A) : M S A := fun s => Ret s a.
Definition throw {S A} (e : exn) : M S A := fun s => Thr s e.
Definition undef {S A} : M S A := fun _ => Undef.

Definition bind {S A B} (m : M S A) (f : A -> M S B) : M S B :=
  fun s => match m s with
           | Ret s' a => f a s'
           | Thr s' e => Thr s' e
           | Undef => Undef
           end.

Definition lift {S A} (r : res A) : M S A :=
  fun s => match r with
           | Ok a => Ret s a
           | Err e => Thr s e
           | UB => Undef
           end.

Notation "'do*' x := e 'in' k" := (bind e (fun x => k))
  (at level 200, x pattern, right associativity).
Notation "e ;;; k" := (bind e (fun _ => k))
  (at level 199, right associativity).

(** [try { m } catch (const std::bad_alloc &) { h }] (PointData_1D.hpp:392-405). *)
Definition catch_bad_alloc {S A} (m h : M S A) : M S A :=
  fun s => match m s with
           | Thr s' EBadAlloc => h s'
           | r => r
           end.

(** Run a computation on the first component of a larger state. *)
Definition on_fst {S T A} (m : M S A) : M (S * T) A :=
  fun st => let '(s, t) := st in
            match m s with
            | Ret s' a => Ret (s', t) a
            | Thr s' e => Thr (s', t) e
            | Undef => Undef
            end.

(** Access to the second component of the state (the fields of [*this]). *)
Definition get_snd {S T} : M (S * T) T := fun st => Ret st (snd st).
Definition upd_snd {S T} (f : T -> T) : M (S * T) unit :=
  fun st => Ret (fst st, f (snd st)) tt.
