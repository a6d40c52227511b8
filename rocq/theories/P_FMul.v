(** C74: products of [double] by the reduction functions.
    C75: the time measured by [exec_time].
    Patterns of [double] are whole numbers below 2^64; [num64] is what they stand for, in units
    of 2^-1074.  [within] is in Spec_FMul.v, [reduction] in Spec_Reduce.v. *)

From Coq Require Import ZArith List Bool Lia Permutation.
From Verif Require Import Base M_Bytes M_Flags M_Loop M_RS1 M_RS2 M_RS3 Spec Spec_Loop Spec_Tec M_Reduce Spec_Reduce M_FSum Spec_FSum M_FMul Spec_FMul.
From Verif Require Import L_Base L_Loop L_TecMin L_ScanF L_Nearest L_Reduce L_FSum L_FMul.
Import ListNotations.
Open Scope Z_scope.

(** The product has the right sign, and its size is right up to one factor between 1 - 2^-53 and
    1 + 2^-53 for each value and one for the initial value, which is multiplied in twice. *)
Theorem C74_product {S} (s : S) ans a vals vs call :
  reduction RF_PRO_f64 ans s vals call -> 0 <= ans < 2 ^ 64 -> num64 ans = Fin a -> stand_for vals vs ->
  Z.of_nat (length vals) < 2 ^ 52 -> tame (a :: vs ++ [a]) ->
  exists v c, call s = Ret s v /\ num64 v = Fin c /\ Z.sgn c = Z.sgn (a * product vs * a) /\
    within (Datatypes.S (length vals)) (Z.abs c) (Z.abs (a * product vs * a)) ((2 ^ 1074) ^ (2 + Z.of_nat (length vs))).
Proof.
  intros H Ha Ea HF HN HT. destruct (pro_holds ans a vals vs Ha Ea HF HN HT) as (v & E & _ & c & Ec & Sc & Wc).
  assert (P : product (a :: vs ++ [a]) = a * product vs * a).
  { change (product (a :: vs ++ [a])) with (a * product (vs ++ [a])). rewrite product_snoc. ring. }
  assert (Q : scale (a :: vs ++ [a]) = (2 ^ 1074) ^ (2 + Z.of_nat (length vs))).
  { unfold scale. f_equal. cbn [length]. rewrite app_length. cbn [length]. lia. }
  rewrite P in Sc, Wc. rewrite Q in Wc. exists v, c. rewrite (reduction_outcome _ _ _ _ _ H), E. auto.
Qed.
Print Assumptions C74_product.

(** With [PD_RF_PRO_ABS] only the initial value has a sign. *)
Theorem C74_product_abs {S} (s : S) ans a vals vs call :
  reduction RF_PRO_ABS_f64 ans s vals call -> 0 <= ans < 2 ^ 64 -> num64 ans = Fin a -> stand_for vals vs ->
  Z.of_nat (length vals) < 2 ^ 52 -> tame (a :: vs ++ [a]) ->
  exists v c, call s = Ret s v /\ num64 v = Fin c /\ Z.sgn c = Z.sgn (Z.abs (a * product vs) * a) /\
    within (Datatypes.S (length vals)) (Z.abs c) (Z.abs (a * product vs * a)) ((2 ^ 1074) ^ (2 + Z.of_nat (length vs))).
Proof.
  intros H Ha Ea HF HN HT. destruct (pro_abs_holds ans a vals vs Ha Ea HF HN HT) as (v & E & _ & c & Ec & Sc & Wc).
  assert (P : product (map Z.abs (a :: vs) ++ [a]) = Z.abs (a * product vs) * a).
  { rewrite product_snoc, <- product_abs. reflexivity. }
  assert (Q : scale (map Z.abs (a :: vs) ++ [a]) = (2 ^ 1074) ^ (2 + Z.of_nat (length vs))).
  { unfold scale. f_equal. rewrite app_length, map_length. cbn [length]. lia. }
  rewrite P in Sc, Wc. rewrite Q in Wc. rewrite Z.abs_mul, Z.abs_involutive, <- Z.abs_mul in Wc.
  exists v, c. rewrite (reduction_outcome _ _ _ _ _ H), E. auto.
Qed.
Print Assumptions C74_product_abs.

(** Each step is as good as can be, small numbers included: no [double] is nearer to the product
    of the two numbers. *)
Theorem C74_nearest x xx a b : 0 <= x < 2 ^ 64 -> 0 <= xx < 2 ^ 64 -> num64 xx = Fin a -> num64 x = Fin b ->
  Z.abs (a * b) <= double_max * 2 ^ 1074 ->
  exists z c, RF_PRO_f64 x xx = Ok z /\ num64 z = Fin c /\
    forall y v, num64 y = Fin v -> Z.abs (c * 2 ^ 1074 - a * b) <= Z.abs (v * 2 ^ 1074 - a * b).
Proof.
  intros Hx Hxx A B H. destruct (dmul_nearest xx x a b Hxx Hx A B H) as (c & E & N). exists (dmul xx x), c.
  split; [reflexivity|]. split; [exact E|exact N].
Qed.
Print Assumptions C74_nearest.

(** A value that is not a number is not lost. *)
Theorem C74_nan {S} (s : S) reduce ans vals call :
  In reduce [RF_PRO_f64; RF_PRO_ABS_f64] -> reduction reduce ans s vals call -> Forall (fpattern Double) vals ->
  num64 ans = NaN \/ Exists (fun x => num64 x = NaN) vals ->
  exists v, call s = Ret s v /\ num64 v = NaN.
Proof.
  intros I H HF N. exists QNAN. rewrite (reduction_outcome _ _ _ _ _ H). split; [|reflexivity].
  destruct I as [<-|[<-|[]]]; [rewrite pro_nan by exact N|rewrite pro_abs_nan by assumption]; reflexivity.
Qed.
Print Assumptions C74_nan.

(** The order of the values matters: 2^-1000, 2^-1000, 2^1000 give 0, but 2^-1000, 2^1000,
    2^-1000 give 2^-1000. *)
Theorem C74_order_refuted :
  exists vals vals' call call',
    Permutation vals vals' /\ reduction RF_PRO_f64 (1023 * 2 ^ 52) tt vals call /\ reduction RF_PRO_f64 (1023 * 2 ^ 52) tt vals' call' /\
    exists v v', call tt = Ret tt v /\ call' tt = Ret tt v' /\ num64 v = Fin 0 /\ num64 v' = Fin (2 ^ 74).
Proof.
  set (i := 1023 * 2 ^ 52). set (s := 23 * 2 ^ 52). set (b := 2023 * 2 ^ 52).
  assert (Ri : 0 <= i < 2 ^ 63) by (unfold i; lia). assert (Rs : 0 <= s < 2 ^ 63) by (unfold s; lia). assert (Rb : 0 <= b < 2 ^ 63) by (unfold b; lia).
  assert (Ei : num64 i = Fin (2 ^ 1074)) by reflexivity. assert (Es : num64 s = Fin (2 ^ 74)) by reflexivity. assert (Eb : num64 b = Fin (2 ^ 2074)) by reflexivity.
  assert (E1 : dmul i s = s) by (apply (dmul_exact i s s _ _ _ Ri Rs Rs Ei Es Es); [apply Z.mul_nonneg_nonneg; apply Z.pow_nonneg; lia|apply Z.mul_comm]).
  assert (E2 : dmul s s = 0) by (apply (dmul_tiny s s _ _ Rs Rs Es Es); [reflexivity|apply Z.ltb_lt; reflexivity]).
  assert (E3 : dmul 0 b = 0) by (apply (dmul_exact 0 b 0 0 (2 ^ 2074) 0); try assumption; try reflexivity; lia).
  assert (E4 : dmul i 0 = 0) by (apply (dmul_exact i 0 0 (2 ^ 1074) 0 0); try assumption; try reflexivity; lia).
  assert (E5 : dmul s b = i).
  { apply (dmul_exact s b i _ _ _ Rs Rb Ri Es Eb Ei); [apply Z.mul_nonneg_nonneg; apply Z.pow_nonneg; lia|]. unfold U. rewrite <- !Z.pow_add_r by lia. reflexivity. }
  exists [s; s; b], [s; b; s],
    (PD_Reduce_N 0 3 i RF_PRO_f64 (fun n => ret (nth (Z.to_nat n) [s; s; b] 0))),
    (PD_Reduce_N 0 3 i RF_PRO_f64 (fun n => ret (nth (Z.to_nat n) [s; b; s] 0))).
  assert (H1 : reduction RF_PRO_f64 i tt [s; s; b] (PD_Reduce_N 0 3 i RF_PRO_f64 (fun n => ret (nth (Z.to_nat n) [s; s; b] 0)))).
  { apply red_N; [lia|reflexivity|]. repeat (apply Forall2_cons; [reflexivity|]). apply Forall2_nil. }
  assert (H2 : reduction RF_PRO_f64 i tt [s; b; s] (PD_Reduce_N 0 3 i RF_PRO_f64 (fun n => ret (nth (Z.to_nat n) [s; b; s] 0)))).
  { apply red_N; [lia|reflexivity|]. repeat (apply Forall2_cons; [reflexivity|]). apply Forall2_nil. }
  split; [apply perm_skip, perm_swap|]. split; [exact H1|]. split; [exact H2|]. exists 0, s.
  rewrite (reduction_outcome _ _ _ _ _ H1), (reduction_outcome _ _ _ _ _ H2). unfold outcome. rewrite !accumulate_pro.
  cbn [rbind fold_left]. unfold RF_PRO_f64. rewrite E1, E2, E3, E4, E5, E1, E1.
  split; [reflexivity|]. split; [reflexivity|]. split; [reflexivity|exact Es].
Qed.
Print Assumptions C74_order_refuted.

(** The product of -3 and 1/2, from 1. *)
Example C74_ex :
  let vals := [2 ^ 63 + 1024 * 2 ^ 52 + 2 ^ 51; 1022 * 2 ^ 52] in
  let vs := [- 3 * 2 ^ 1074; 2 ^ 1073] in
  let call := PD_Reduce_N 0 2 (1023 * 2 ^ 52) RF_PRO_f64 (fun n => ret (nth (Z.to_nat n) vals 0)) in
  reduction RF_PRO_f64 (1023 * 2 ^ 52) tt vals call /\ num64 (1023 * 2 ^ 52) = Fin (2 ^ 1074) /\ stand_for vals vs /\
  tame (2 ^ 1074 :: vs ++ [2 ^ 1074]).
Proof.
  cbv zeta. split; [|split; [|split]].
  - apply red_N; [lia|reflexivity|]. repeat (apply Forall2_cons; [reflexivity|]). apply Forall2_nil.
  - reflexivity.
  - repeat (apply Forall2_cons; [split; [lia|reflexivity]|]). apply Forall2_nil.
  - intros k. right.
    assert (T : forall l, (scale l <=? 2 ^ 1021 * Z.abs (product l)) && (Z.abs (product l) <=? 2 ^ 1022 * scale l) = true ->
                scale l <= 2 ^ 1021 * Z.abs (product l) /\ Z.abs (product l) <= 2 ^ 1022 * scale l).
    { intros l H. apply andb_true_iff in H. destruct H as [H1 H2]. split; [apply Z.leb_le, H1|apply Z.leb_le, H2]. }
    apply T. do 4 (destruct k as [|k]; [reflexivity|]). cbn [app firstn]. rewrite firstn_nil. reflexivity.
Qed.

(** ** exec_time *)

(** [exp] is run exactly [N] times, and the result is the mean of the differences of the clock, in
    seconds, up to [N] + 3 roundings. *)
Theorem C75_mean {S} ticks N (exp : M (S * nat) unit) st ds st' : 1 <= N < UINT_MOD ->
  passes ticks exp (Z.to_nat N) st ds st' -> Forall (fun d => 0 <= d < 2 ^ 63) ds ->
  exists t v, exec_time ticks N exp st = Ret st' t /\ num64 t = Fin v /\ within (Z.to_nat N + 3) v (zsum ds) (1000000 * N).
Proof. exact (exec_time_mean ticks N exp st ds st'). Qed.
Print Assumptions C75_mean.

(** The first exception of [exp] ends the measurement and is passed on; [exp] is not run again. *)
Theorem C75_throws {S} ticks N (exp : M (S * nat) unit) st n ds s k st' e : 0 <= N < UINT_MOD ->
  passes ticks exp n st ds (s, k) -> Forall (fun d => 0 <= d < 2 ^ 63) ds -> Z.of_nat n < N -> exp (s, Datatypes.S k) = Thr st' e ->
  exec_time ticks N exp st = Thr st' e.
Proof. exact (exec_time_throws ticks N exp st n ds s k st' e). Qed.
Print Assumptions C75_throws.

(** The measured time is never negative and is zero only if the clock never moved. *)
Theorem C75_sign {S} ticks N (exp : M (S * nat) unit) st ds st' : 1 <= N < UINT_MOD ->
  passes ticks exp (Z.to_nat N) st ds st' -> Forall (fun d => 0 <= d < 2 ^ 63) ds ->
  exists t v, exec_time ticks N exp st = Ret st' t /\ num64 t = Fin v /\ 0 <= v /\ (v = 0 <-> Forall (fun d => d = 0) ds).
Proof.
  intros HN HP HF. destruct (exec_time_mean ticks N exp st ds st' HN HP HF) as (t & v & E & Ev & W). exists t, v.
  split; [exact E|]. split; [exact Ev|]. pose proof (zsum_nonneg ds HF) as [S0 _]. pose proof U_pos as PU.
  split; [apply (within_nonneg _ v (zsum ds) (1000000 * N) S0 ltac:(lia) W)|].
  assert (Z : zsum ds = 0 <-> Forall (fun d => d = 0) ds).
  { clear - HF. induction HF as [|d ds Hd HF IH]; [split; [constructor|reflexivity]|]. rewrite zsum_cons. pose proof (zsum_nonneg ds HF) as [S0 _]. split.
    - intros H. constructor; [lia|]. apply IH. lia.
    - intros H. inversion H as [|? ? H1 H2]. subst. apply IH in H2. lia. }
  rewrite <- Z. pose proof (within_half (Z.to_nat N + 3) v (zsum ds) (1000000 * N)) as G. assert (HU : UINT_MOD = 2 ^ 32) by reflexivity.
  specialize (G ltac:(lia) S0 W). clear - G PU S0 HN. split; intros H; rewrite H in G; nia.
Qed.
Print Assumptions C75_sign.

(** Without a single run the result is not a number (0 / 0), and nothing happens. *)
Theorem C75_none {S} ticks (exp : M (S * nat) unit) st : exists t, exec_time ticks 0 exp st = Ret st t /\ num64 t = NaN.
Proof. exists QNAN. split; reflexivity. Qed.
Print Assumptions C75_none.

(** Two runs that take 3 and 4 ticks of the clock (the second reads the clock itself). *)
Example C75_ex :
  let ticks := fun k => nth k [10; 13; 20; 22; 24] 0 in
  let exp : M (Z * nat) unit := fun st => let '(s, k) := st in Ret (s + 1, if s =? 1 then Datatypes.S k else k) tt in
  passes ticks exp 2 (0, 0%nat) [3; 4] (2, 5%nat) /\ Forall (fun d => 0 <= d < 2 ^ 63) [3; 4] /\
  exists t v, exec_time ticks 2 exp (0, 0%nat) = Ret (2, 5%nat) t /\ num64 t = Fin v /\ within 5 v 7 2000000.
Proof.
  cbv zeta.
  assert (P : passes (fun k => nth k [10; 13; 20; 22; 24] 0) (fun st : Z * nat => let '(s, k) := st in Ret (s + 1, if s =? 1 then Datatypes.S k else k) tt) 2 (0, 0%nat) [3; 4] (2, 5%nat)).
  { set (ticks := fun k => nth k [10; 13; 20; 22; 24] 0). change [3; 4] with [ticks 1%nat - ticks 0%nat; ticks 4%nat - ticks 2%nat].
    apply (pa_more ticks _ 1 0 0%nat 1 1%nat); [reflexivity|]. apply (pa_more ticks _ 0 1 2%nat 2 4%nat []); [reflexivity|]. constructor. }
  assert (F : Forall (fun d => 0 <= d < 2 ^ 63) [3; 4]) by (repeat (constructor; [lia|]); constructor).
  split; [exact P|]. split; [exact F|]. apply (C75_mean _ 2 _ _ [3; 4]); [lia|exact P|exact F].
Qed.
