(** C72: sums of [double]. *)

From Coq Require Import ZArith List Bool Lia Permutation.
From Verif Require Import Base M_Bytes M_Flags M_Loop M_RS1 M_RS2 M_RS3 Spec Spec_Loop M_Reduce Spec_Reduce M_FSum Spec_FSum L_Reduce L_FSum.
Import ListNotations.
Open Scope Z_scope.

(** PD_RF_SUM(double): the result differs from the exact sum (with the initial value twice) by
    at most ((1 + 2^-53)^n - 1) times the sum of the absolute values, n the number of values
    and one more. *)
Theorem C72_sum {S} (s : S) ans a vals vs call :
  reduction RF_SUM_f64 ans s vals call -> num64 ans = Fin a -> stand_for vals vs ->
  let size := Z.abs a + zsum (map Z.abs vs) + Z.abs a in
  in_bounds (Datatypes.S (length vals)) size ->
  exists v c, call s = Ret s v /\ num64 v = Fin c /\ close (Datatypes.S (length vals)) size c (a + zsum vs + a).
Proof.
  intros H Ea HF size HB. destruct (sum_close ans a vals vs Ea HF HB) as (v & c & E & F). exists v, c.
  rewrite (reduction_outcome _ _ _ _ _ H), E. split; [reflexivity|exact F].
Qed.
Print Assumptions C72_sum.

(** PD_RF_SUM_ABS(double), initial value not negative: the relative error is at most
    (1 + 2^-53)^n - 1. *)
Theorem C72_sum_abs {S} (s : S) ans a vals vs call :
  reduction RF_SUM_ABS_f64 ans s vals call -> num64 ans = Fin a -> 0 <= a -> stand_for vals vs ->
  let sum := a + zsum (map Z.abs vs) + a in
  in_bounds (Datatypes.S (length vals)) sum ->
  exists v c, call s = Ret s v /\ num64 v = Fin c /\ close (Datatypes.S (length vals)) sum c sum.
Proof.
  intros H Ea Pa HF size HB. destruct (sum_abs_close ans a vals vs Ea Pa HF HB) as (v & c & E & F). exists v, c.
  rewrite (reduction_outcome _ _ _ _ _ H), E. split; [reflexivity|exact F].
Qed.
Print Assumptions C72_sum_abs.

(** Each step is as good as can be: no [double] is nearer to the sum of the two numbers. *)
Theorem C72_nearest x xx a b : num64 xx = Fin a -> num64 x = Fin b -> Z.abs (a + b) <= double_max ->
  exists z c, RF_SUM_f64 x xx = Ok z /\ num64 z = Fin c /\ forall y v, num64 y = Fin v -> Z.abs (c - (a + b)) <= Z.abs (v - (a + b)).
Proof. intros A B H. destruct (dadd_nearest xx x a b A B H) as (c & E & N). exists (dadd xx x), c. split; [reflexivity|]. split; [exact E|exact N]. Qed.
Print Assumptions C72_nearest.

(** Sums of multiples of a power of two that stay below 2^53 of them (for example of whole
    numbers below 2^53: then 2^k is 2^1074 units) are exact. *)
Theorem C72_exact {S} (s : S) k ans m vals ms call :
  reduction RF_SUM_f64 ans s vals call -> 0 <= k <= 2045 ->
  num64 ans = Fin (m * 2 ^ k) -> stand_for vals (map (fun m => m * 2 ^ k) ms) ->
  Z.abs m + zsum (map Z.abs ms) + Z.abs m < 2 ^ 53 ->
  exists v, call s = Ret s v /\ num64 v = Fin ((m + zsum ms + m) * 2 ^ k).
Proof.
  intros H Hk Em HF HB. destruct (sum_exact k ans m vals ms Hk Em HF HB) as (v & E & F). exists v.
  rewrite (reduction_outcome _ _ _ _ _ H), E. split; [reflexivity|exact F].
Qed.
Print Assumptions C72_exact.

(** A NaN among the values shows in the sum. *)
Theorem C72_nan {S} (s : S) reduce ans vals call :
  In reduce [RF_SUM_f64; RF_SUM_ABS_f64] -> reduction reduce ans s vals call -> Forall (fpattern Double) vals ->
  num64 ans = NaN \/ Exists (fun x => num64 x = NaN) vals ->
  exists v, call s = Ret s v /\ num64 v = NaN.
Proof.
  intros I H HF N. exists QNAN. rewrite (reduction_outcome _ _ _ _ _ H). split; [|reflexivity].
  destruct I as [<-|[<-|[]]]; [rewrite sum_nan by exact N|rewrite sum_abs_nan by assumption]; reflexivity.
Qed.
Print Assumptions C72_nan.

(** The order of the values matters: 1, 2^53, -2^53 give 0, but 2^53, -2^53, 1 give 1. *)
Theorem C72_order_refuted :
  exists vals vals' call call',
    Permutation vals vals' /\ reduction RF_SUM_f64 0 tt vals call /\ reduction RF_SUM_f64 0 tt vals' call' /\
    exists v v', call tt = Ret tt v /\ call' tt = Ret tt v' /\ num64 v = Fin 0 /\ num64 v' = Fin (2 ^ 1074).
Proof.
  exists [1023 * 2 ^ 52; 1076 * 2 ^ 52; 2 ^ 63 + 1076 * 2 ^ 52], [1076 * 2 ^ 52; 2 ^ 63 + 1076 * 2 ^ 52; 1023 * 2 ^ 52],
    (PD_Reduce_N 0 3 0 RF_SUM_f64 (fun n => ret (nth (Z.to_nat n) [1023 * 2 ^ 52; 1076 * 2 ^ 52; 2 ^ 63 + 1076 * 2 ^ 52] 0))),
    (PD_Reduce_N 0 3 0 RF_SUM_f64 (fun n => ret (nth (Z.to_nat n) [1076 * 2 ^ 52; 2 ^ 63 + 1076 * 2 ^ 52; 1023 * 2 ^ 52] 0))).
  split; [eapply perm_trans; [apply perm_swap|apply perm_skip, perm_swap]|].
  split; [|split].
  - apply red_N; [lia|reflexivity|]. repeat (apply Forall2_cons; [reflexivity|]). apply Forall2_nil.
  - apply red_N; [lia|reflexivity|]. repeat (apply Forall2_cons; [reflexivity|]). apply Forall2_nil.
  - exists 0, (1023 * 2 ^ 52). repeat split; reflexivity.
Qed.
Print Assumptions C72_order_refuted.

(** 1/2, 1 and -2^-52 (which has to be rounded away when added to 3/2): the hypotheses of
    [C72_sum] hold and the bound is met. *)
Example C72_ex :
  let vals := [1022 * 2 ^ 52; 1023 * 2 ^ 52; 2 ^ 63 + 969 * 2 ^ 52] in
  let vs := [2 ^ 1073; 2 ^ 1074; - 2 ^ 1020] in
  let call := PD_Reduce_N 0 3 0 RF_SUM_f64 (fun n => ret (nth (Z.to_nat n) vals 0)) in
  reduction RF_SUM_f64 0 tt vals call /\ stand_for vals vs /\
  in_bounds 4 (Z.abs 0 + zsum (map Z.abs vs) + Z.abs 0) /\
  call tt = Ret tt (1023 * 2 ^ 52 + 2 ^ 51) /\ num64 (1023 * 2 ^ 52 + 2 ^ 51) = Fin (3 * 2 ^ 1073).
Proof.
  cbv zeta. split; [|split; [|split; [|split; reflexivity]]].
  - apply red_N; [lia|reflexivity|]. repeat (apply Forall2_cons; [reflexivity|]). apply Forall2_nil.
  - repeat (apply Forall2_cons; [split; [lia|reflexivity]|]). apply Forall2_nil.
  - apply Z.leb_le. reflexivity.
Qed.
