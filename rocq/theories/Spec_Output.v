(** Specification vocabulary for the output of arrays. *)

From Coq Require Import ZArith String List Bool.
From Verif Require Import Base M_Flags M_Bytes M_TecZone M_TecFile Spec_Tec Spec_Plt M_Heap M_World Spec Spec_Loop Spec_Array Spec_Hist M_Output.
Import ListNotations.
Open Scope Z_scope.

(** The call ends the life of the elements array [a] has.  (A refused realloc does not.) *)
Definition frees {V} (c : op V) (a : nat) : bool :=
  match c with
  | Clear a' | Destroy a' => Nat.eqb a' a
  | Realloc a' gs => Nat.eqb a' a && match bad_dim 0 gs with None => true | Some _ => false end
  | _ => false
  end.

(** Elements of type [t] take [wd] bytes; [enc] are those of a value, [junk] those of elements never assigned. *)
Definition encodes {V} (t : ctype) (wd : Z) (enc : V -> bytes) (junk : nat -> Z -> bytes) : Prop :=
  (exists d, data_of t None = Ok d /\ d_size d = wd) /\
  (forall v, Z.of_nat (length (enc v)) = wd) /\ forall b i, Z.of_nat (length (junk b i)) = wd.

(** The file can be opened and memory does not run out. *)
Definition plenty (e : env) : Prop := e_open e = true /\ forall i k, e_oom e i k = false.
