(** Specification vocabulary for 0D arrays. *)

From Coq Require Import ZArith String List Bool.
From Verif Require Import Base M_Heap M_PD0 Spec_Loop.
Import ListNotations.
Open Scope Z_scope.

Section Zero.
Context {V : Type}.

(** The value of the last statement of [h] that wrote component [n]. *)
Fixpoint last_write0 (h : list (op0 V)) (n : Z) : option V :=
  match h with
  | [] => None
  | c :: h' =>
      match last_write0 h' n with
      | Some v => Some v
      | None => match c with Write0 n' v => if n' =? n then Some v else None | Read0 _ => None end
      end
  end.

(** What the statement [c] answers after the statements [h], for [N] components. *)
Definition answer0 (N : Z) (h : list (op0 V)) (c : op0 V) : result0 V :=
  let bad n := N <=? n in
  match c with
  | Read0 n => if bad n then Threw (EN n (N - 1)) else Got (last_write0 h n)
  | Write0 n _ => if bad n then Threw (EN n (N - 1)) else Stored
  end.

Definition arg0 (c : op0 V) : Z := match c with Read0 n | Write0 n _ => n end.
End Zero.
