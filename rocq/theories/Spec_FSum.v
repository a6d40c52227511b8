(** Specification vocabulary for sums of [double]. *)

From Coq Require Import ZArith List.
From Verif Require Import Base M_Bytes Spec_Loop.
Import ListNotations.
Open Scope Z_scope.

(** The patterns [l] stand for the finite numbers [vs] (in units of 2^-1074). *)
Definition stand_for (l : list Z) (vs : list Z) : Prop :=
  Forall2 (fun x v => 0 <= x < 2 ^ 64 /\ num64 x = Fin v) l vs.

(** The largest finite [double], in units of 2^-1074. *)
Definition double_max : Z := (2 ^ 53 - 1) * 2 ^ 2045.

(** [close n size x y]: [x] and [y] differ by at most ((1 + 2^-53)^n - 1) * [size]. *)
Definition close (n : nat) (size x y : Z) : Prop :=
  2 ^ (53 * Z.of_nat n) * Z.abs (x - y) <= ((2 ^ 53 + 1) ^ Z.of_nat n - 2 ^ (53 * Z.of_nat n)) * size.

(** After [n] roundings upwards a number of this size is still finite. *)
Definition in_bounds (n : nat) (size : Z) : Prop :=
  (2 ^ 53 + 1) ^ Z.of_nat n * size <= 2 ^ (53 * Z.of_nat n) * double_max.
