(** Specification vocabulary for the time loop of the heat examples. *)

From Coq Require Import ZArith.
From Verif Require Import Base Spec_FMul.
Open Scope Z_scope.

(** [first_reach n p q stop k]: a step is [p / q] up to [n] roundings, and [stop] is a number in units of 2^-1074.  After [k]
    additions of the step, each of them rounded, the sum has reached [stop]; after [k - 1] it had not. *)
Definition first_reach (n : nat) (p q stop : Z) (k : nat) : Prop :=
  (1 <= k)%nat /\
  (exists c, within (n + k) c (Z.of_nat k * p) q /\ stop <= c) /\
  (exists c, within (n + (k - 1)) c (Z.of_nat (k - 1) * p) q /\ c < stop).
