(** Specification vocabulary for products of [double] and for [exec_time]. *)

From Coq Require Import ZArith List.
From Verif Require Import Base.
Import ListNotations.
Open Scope Z_scope.

(** [within n x p q]: the number [x] (in units of 2^-1074) lies between
    (1 - 2^-53)^n * p / q and (1 + 2^-53)^n * p / q. *)
Definition within (n : nat) (x p q : Z) : Prop :=
  (2 ^ 53 - 1) ^ Z.of_nat n * (p * 2 ^ 1074) <= 2 ^ (53 * Z.of_nat n) * (x * q) <= (2 ^ 53 + 1) ^ Z.of_nat n * (p * 2 ^ 1074).

(** The product of the numbers [vs], each in units of 2^-1074, is
    [product vs / scale vs]. *)
Definition product (vs : list Z) : Z := fold_right Z.mul 1 vs.
Definition scale (vs : list Z) : Z := (2 ^ 1074) ^ Z.of_nat (length vs).

(** The product of the first [k] numbers, for every [k], is zero or has a size between 2^-1021
    and 2^1022. *)
Definition tame (vs : list Z) : Prop :=
  forall k, product (firstn k vs) = 0 \/
    scale (firstn k vs) <= 2 ^ 1021 * Z.abs (product (firstn k vs)) /\
    Z.abs (product (firstn k vs)) <= 2 ^ 1022 * scale (firstn k vs).

(** [passes ticks exp n st ds st']: [exp] is run [n] times from [st], none of the runs throws,
    and the end is [st'].  The clock is read before and after each run (call [k] of [clock]
    returns [ticks k], the second component of the state counts the calls), and [ds] are the
    differences. *)
Inductive passes {S} (ticks : nat -> Z) (exp : M (S * nat) unit) : nat -> S * nat -> list Z -> S * nat -> Prop :=
| pa_none st : passes ticks exp 0 st [] st
| pa_more n s k s' k' ds st :
    exp (s, Datatypes.S k) = Ret (s', k') tt -> passes ticks exp n (s', Datatypes.S k') ds st ->
    passes ticks exp (Datatypes.S n) (s, k) (ticks k' - ticks k :: ds) st.
