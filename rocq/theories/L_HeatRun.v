(** Lemmas for P_TimeLoop.v: the constants and the runs of the heat examples *)

From Coq Require Import ZArith Ascii String List Bool Lia.
From Verif Require Import Base M_Bytes M_Scan M_Flags M_Loop M_Reduce M_FSum M_FMul M_Print Spec_Tec Spec Spec_Loop Spec_FSum Spec_FMul.
From Verif Require Import L_Base L_Loop L_Text L_TecMin L_ScanF L_Near L_Print L_Nearest L_Reduce L_FSum L_FMul.
From Verif Require Import M_Heap M_World M_Client M_TimeLoop Spec_Array Spec_Hist Spec_Reach Spec_Client Spec_TimeLoop L_TimeLoop.
From Verif Require M_Examples L_Examples.
Import ListNotations.
Open Scope list_scope.
Open Scope Z_scope.

(** ** The step of Example_D1_heat *)

Lemma h_within N : 1 <= N <= 2 ^ 31 -> exists w, num64 (ddiv (dsub pi (fneg Double pi)) (of_whole N)) = Fin w /\
  0 <= ddiv (dsub pi (fneg Double pi)) (of_whole N) < 2 ^ 63 /\ within 3 w 62831852 (10000000 * N).
Proof.
  intros HN. destruct two_pi_within as (w & E & R & W). destruct (whole_within N) as (v & Ev & Rv & Wv); [split; [lia|apply (Z.le_lt_trans _ (2 ^ 31)); [lia|reflexivity]]|].
  assert (B100 : 2 ^ 31 * 2 ^ 69 = 2 ^ 100) by reflexivity. assert (B69 : 100000000 <= 2 ^ 69) by (apply Z.leb_le; reflexivity).
  destruct (quot_within 2 0 _ (of_whole N) w v 62831852 10000000 N 1 R Rv E Ev ltac:(lia) ltac:(lia) ltac:(lia) ltac:(lia) W Wv ltac:(apply Z.leb_le; reflexivity) ltac:(apply Z.leb_le; reflexivity)) as (c & Ec & Rc & Wc).
  - assert (100000000 <= 2 ^ 100) by (apply Z.leb_le; reflexivity). nia.
  - apply (Z.le_trans _ (10000000 * 2 ^ 31)); [lia|]. apply Z.leb_le. reflexivity.
  - exists c. auto.
Qed.

Lemma dt1_within N : 2 <= N <= 2 ^ 30 -> exists w, num64 (dt1 N) = Fin w /\ within 30 w (62831852 * 62831852) (10 * (2 * (10000000 * (N - 1) * (10000000 * (N - 1))))).
Proof.
  intros HN. unfold dt1, a_hh1, h1. rewrite (uwrap_small (N - 1)) by (unfold in_uint; change (2 ^ 30) with 1073741824 in HN; lia).
  destruct (h_within (N - 1)) as (b & E & R & W); [split; [lia|apply (Z.le_trans _ (2 ^ 30)); [lia|discriminate]]|].
  change (2 ^ 30) with 1073741824 in HN. assert (B47 : 2 ^ 47 = 140737488355328) by reflexivity.
  destruct (step_within 2 62831852 (10000000 * (N - 1)) 3 (ddiv (dsub pi (fneg Double pi)) (of_whole (N - 1))) b ltac:(lia) ltac:(lia) ltac:(lia) ltac:(lia) ltac:(lia) ltac:(discriminate) R E W) as [_ (w & Ew & _ & Ww)].
  exists w. auto.
Qed.

(** ** The step of Example_D2_heat *)

Lemma fneg_num x a : 0 <= x < 2 ^ 64 -> num64 x = Fin a -> num64 (fneg Double x) = Fin (- a).
Proof. intros R E. pose proof (fval_neg Double x R) as H. unfold fval in H. rewrite E in H. exact H. Qed.

Lemma minus_two : num64 (of_whole (-2)) = Fin (- (2 * U)) /\ 0 <= of_whole (-2) < 2 ^ 64.
Proof. split; [reflexivity|split; [discriminate|reflexivity]]. Qed.

Lemma four_pi_within : exists w, num64 (dsub (dmul (of_whole 2) pi) (dmul (of_whole (-2)) pi)) = Fin w /\
  0 <= dsub (dmul (of_whole 2) pi) (dmul (of_whole (-2)) pi) < 2 ^ 63 /\ within 3 w 125663704 10000000.
Proof.
  destruct pi_within as (w & E & R & W). destruct (of_whole_exact 2) as [E2 R2]; [split; [lia|reflexivity]|]. destruct minus_two as [E3 R3].
  pose proof U_pos as PU. pose proof U_big as BU. pose proof (within_nonneg 1 w 31415926 10000000 ltac:(lia) ltac:(lia) W) as W0.
  pose proof (within_half 1 w 31415926 10000000 ltac:(apply Z.leb_le; reflexivity) ltac:(lia) W) as [H1 H2].
  assert (R64 : forall x, 0 <= x < 2 ^ 63 -> 0 <= x < 2 ^ 64) by (intros; change (2 ^ 64) with (2 * 2 ^ 63); lia).
  assert (A1 : 2 ^ 52 * U <= Z.abs (2 * U * w)).
  { rewrite Z.abs_eq by nia. replace (2 * U * w) with (2 * w * U) by ring. apply Z.mul_le_mono_nonneg_r; [lia|]. assert (2 ^ 52 <= 2 ^ 200) by (apply Z.leb_le; reflexivity). lia. }
  assert (A2 : Z.abs (2 * U * w) <= DMAX * (U * U)).
  { rewrite Z.abs_eq by nia. replace (2 * U * w) with (2 * w * U) by ring. rewrite Z.mul_assoc. apply Z.mul_le_mono_nonneg_r; [lia|].
    apply (Z.le_trans _ (100 * U)); [lia|]. apply Z.mul_le_mono_nonneg_r; [lia|]. apply (Z.le_trans _ (2 ^ 1023)); [apply Z.leb_le; reflexivity|apply consts_mul]. }
  assert (A3 : Z.abs (- (2 * U) * w) = Z.abs (2 * U * w)) by (rewrite Z.mul_opp_l; apply Z.abs_opp).
  destruct (dmul_rel (of_whole 2) pi (2 * U) w (R64 _ R2) (R64 _ R) E2 E A1 A2) as (c & Ec & Rc & Sc & Kc).
  destruct (dmul_rel (of_whole (-2)) pi (- (2 * U)) w R3 (R64 _ R) E3 E) as (d & Ed & Rd & Sd & Kd); [rewrite A3; exact A1|rewrite A3; exact A2|].
  rewrite A3 in Kd. rewrite (Z.abs_eq (2 * U * w)) in Kc, Kd by nia. clear A1 A2 A3.
  assert (C0 : 0 < c) by (apply Z.sgn_pos_iff; rewrite Sc; apply Z.sgn_pos; nia).
  assert (D0 : d < 0) by (apply Z.sgn_neg_iff; rewrite Sd; apply Z.sgn_neg; nia).
  rewrite (Z.abs_eq c) in Kc by lia. rewrite (Z.abs_neq d) in Kd by lia.
  assert (WR : forall z, (2 ^ 53 - 1) * (2 * U * w) <= 2 ^ 53 * (z * U) <= (2 ^ 53 + 1) * (2 * U * w) -> within 2 z 62831852 10000000).
  { intros z K. apply (within_round 1 (2 * w)); [lia|lia| |].
    - revert K PU. generalize (2 ^ 53), U. clear. intros B u [K1 K2] P. split; nia.
    - clear - W. rewrite within_def in *. revert W. generalize (down 1), (one 1), (up 1), U. intros. lia. }
  assert (RP : 0 <= dmul (of_whole 2) pi < 2 ^ 63).
  { pose proof (sign_bit _ _ Rc Ec) as SB. destruct (Z.leb_spec (2 ^ 63) (dmul (of_whole 2) pi)); [lia|lia]. }
  unfold dsub.
  pose proof (WR c Kc) as Wc. pose proof (WR (- d) Kd) as Wd.
  pose proof (within_half 2 c 62831852 10000000 ltac:(apply Z.leb_le; reflexivity) ltac:(lia) Wc) as [_ HC].
  pose proof (within_half 2 (- d) 62831852 10000000 ltac:(apply Z.leb_le; reflexivity) ltac:(lia) Wd) as [_ HD].
  apply (add_within 2 _ _ c (- d) 62831852 62831852 10000000 RP Ec (fneg_num _ _ Rd Ed)); try assumption; try lia.
Qed.

Lemma hy_within N : 1 <= N <= 2 ^ 31 -> exists w, num64 (ddiv (dsub (dmul (of_whole 2) pi) (dmul (of_whole (-2)) pi)) (of_whole N)) = Fin w /\
  0 <= ddiv (dsub (dmul (of_whole 2) pi) (dmul (of_whole (-2)) pi)) (of_whole N) < 2 ^ 63 /\ within 4 w 125663704 (10000000 * N).
Proof.
  intros HN. destruct four_pi_within as (w & E & R & W). destruct (whole_within N) as (v & Ev & Rv & Wv); [split; [lia|apply (Z.le_lt_trans _ (2 ^ 31)); [lia|reflexivity]]|].
  destruct (quot_within 3 0 _ (of_whole N) w v 125663704 10000000 N 1 R Rv E Ev ltac:(lia) ltac:(lia) ltac:(lia) ltac:(lia) W Wv ltac:(apply Z.leb_le; reflexivity) ltac:(apply Z.leb_le; reflexivity)) as (c & Ec & Rc & Wc).
  - assert (200000000 <= 2 ^ 100) by (apply Z.leb_le; reflexivity). nia.
  - apply (Z.le_trans _ (10000000 * 2 ^ 31)); [lia|]. apply Z.leb_le. reflexivity.
  - exists c. auto.
Qed.

Lemma dt2_within N : 1 <= N <= 2 ^ 29 -> exists w, num64 (dt2 N) = Fin w /\ within 30 w (62831852 * 62831852) (10 * (4 * (10000000 * N * (10000000 * N)))).
Proof.
  intros HN. change (2 ^ 29) with 536870912 in HN. assert (B31 : 2 ^ 31 = 2147483648) by reflexivity. assert (B47 : 2 ^ 47 = 140737488355328) by reflexivity.
  unfold dt2, a_hh_x2, hx2, a_hh_y2, hy2.
  rewrite (uwrap_small (N + 1)) by (unfold in_uint; lia). rewrite (uwrap_small (2 * N)) by (unfold in_uint; lia).
  rewrite (uwrap_small (2 * N + 1)) by (unfold in_uint; lia). rewrite (uwrap_small (N + 1 - 1)) by (unfold in_uint; lia). rewrite (uwrap_small (2 * N + 1 - 1)) by (unfold in_uint; lia).
  replace (N + 1 - 1) with N by ring. replace (2 * N + 1 - 1) with (2 * N) by ring.
  destruct (h_within N) as (b & E & R & W); [lia|]. destruct (hy_within (2 * N)) as (b' & E' & R' & W'); [lia|].
  destruct (step_within 4 62831852 (10000000 * N) 3 (ddiv (dsub pi (fneg Double pi)) (of_whole N)) b ltac:(lia) ltac:(lia) ltac:(lia) ltac:(lia) ltac:(lia) ltac:(discriminate) R E W) as [(x & Ex & _ & Wx) (w & Ew & _ & Ww)].
  destruct (step_within 1 125663704 (10000000 * (2 * N)) 4 (ddiv (dsub (dmul (of_whole 2) pi) (dmul (of_whole (-2)) pi)) (of_whole (2 * N))) b' ltac:(lia) ltac:(lia) ltac:(lia) ltac:(lia) ltac:(lia) ltac:(discriminate) R' E' W') as [(y & Ey & _ & Wy) _].
  assert (G : y < x).
  { apply (within_lt (4 * 4 + 2) (4 * 3 + 2) y x _ _ _ _) with (5 := Wy) (6 := Wx); try reflexivity; try nia. }
  unfold dgt. rewrite Ex, Ey. cbn [num_lt]. destruct (Z.ltb_spec y x); [|lia]. exists w. auto.
Qed.

(** ** How many lines are shown *)

Lemma lines_bound stop T r s : 0 < r -> 0 < s -> r <= 2 ^ 10 * s -> s <= 2 ^ 10 * r -> 0 <= stop < 2 ^ 63 -> num64 stop = Fin T -> within 1 T r s ->
  forall f, dge f (flow_at (ddiv stop (of_whole 20)) 21) = true -> dge f stop = true.
Proof.
  intros Hr Hs M1 M2 R E W f. destruct (whole_within 20) as (v & Ev & Rv & Wv); [split; [lia|reflexivity]|].
  change (2 ^ 10) with 1024 in *. assert (B100 : 1000000 <= 2 ^ 100) by (apply Z.leb_le; reflexivity).
  destruct (quot_within 1 0 stop (of_whole 20) T v r s 20 1 R Rv E Ev Hr Hs ltac:(lia) ltac:(lia) W Wv ltac:(apply Z.leb_le; reflexivity) ltac:(apply Z.leb_le; reflexivity)) as (c & Ec & Rc & Wc); [nia|nia|].
  change (1 + (0 + 0) + 1)%nat with 2%nat in Wc. rewrite Z.mul_1_r in Wc.
  destruct (flow_within 2 _ c r (s * 20) Ec Hr ltac:(lia) Wc 21) as (a & Ea & _ & Wa).
  { apply Z.leb_le. reflexivity. } { assert (100000 <= 2 ^ 97) by (apply Z.leb_le; reflexivity). change (Z.of_nat 21) with 21. nia. }
  assert (L : T < a).
  { apply (within_lt 1 (2 + 21) T a r s (Z.of_nat 21 * r) (s * 20)); try assumption; try reflexivity; try lia. }
  unfold dge. rewrite E, Ea. destruct (num64 f) as [| |z|]; cbn; try congruence.
  destruct (Z.ltb_spec z a), (Z.ltb_spec z T); cbn; congruence || lia.
Qed.

(** ** The runs *)

Definition timed (k : nat) (dt : Z) (L : nat) (t t' : tstate) : Prop :=
  step t' = uwrap (Z.of_nat k) /\ flowtime t' = flow_at dt k /\ exists new, lines t' = lines t ++ new /\ (List.length new <= L)%nat.

Lemma one_run {S} k dt stop print L (init body : M S unit) s s' t fuel : (1 <= k)%nat -> dge (flow_at dt k) stop = true -> (forall i, (1 <= i < k)%nat -> dge (flow_at dt i) stop = false) ->
  (forall f, dge f (flow_at print L) = true -> dge f stop = true) -> (k <= fuel)%nat -> (init ;;; M_Examples.passes k body) s = Ret s' tt ->
  exists t', (upd_snd time_reset ;;; on_fst init ;;; for_ever fuel dt stop print body) (s, t) = Ret (s', t') tt /\ timed k dt L t t'.
Proof.
  intros Hk HT HF HL Hf H. unfold bind at 1 in H. destruct (init s) as [s1 []|? ?|] eqn:E; [|discriminate|discriminate].
  unfold bind at 1, upd_snd at 1. cbn [fst snd]. unfold bind at 1, on_fst at 1. rewrite E. unfold time_reset.
  destruct (loop_counts dt stop print body k 0 s1 s' fuel 0 (lines t)) as (nx & new & E1 & E2); [lia|intros; apply HF; lia|exact HT|exact H|exact Hf|].
  change (TS (uwrap (Z.of_nat 0)) (flow_at dt 0) (flow_at print 0) (lines t)) with (TS 0 0 0 (lines t)) in E1. rewrite E1.
  eexists. split; [reflexivity|]. split; [reflexivity|split; [reflexivity|]]. cbn [lines]. exists new. split; [reflexivity|]. apply (E2 L HL). lia.
Qed.

Lemma all_runs {S} k dt L (m : M S unit) (m' : M (S * tstate) unit) : (forall s s' t, m s = Ret s' tt -> exists t', m' (s, t) = Ret (s', t') tt /\ timed k dt L t t') ->
  forall (l : list Z) s s' t, run l (fun _ => m) s = Ret s' tt -> exists t', run l (fun _ => m') (s, t) = Ret (s', t') tt /\
    (l <> [] -> timed k dt (L * List.length l) t t') /\ (l = [] -> t' = t).
Proof.
  intros H. induction l as [|x l IH]; intros s s' t E; cbn [run] in *.
  - unfold ret in E. injection E as ->. exists t. split; [reflexivity|]. split; [congruence|reflexivity].
  - unfold bind in *. destruct (m s) as [s1 []|? ?|] eqn:Em; [|discriminate|discriminate]. destruct (H s s1 t Em) as (t1 & E1 & T1). rewrite E1.
    destruct (IH s1 s' t1 E) as (t2 & E2 & T2 & T3). exists t2. split; [exact E2|]. split; [|discriminate]. intros _.
    destruct T1 as (A1 & A2 & new & A3 & A4). destruct l as [|y l].
    + rewrite T3 by reflexivity. split; [exact A1|split; [exact A2|]]. exists new. cbn. split; [exact A3|lia].
    + destruct T2 as (B1 & B2 & new' & B3 & B4); [discriminate|]. split; [exact B1|split; [exact B2|]]. exists (new ++ new'). rewrite B3, A3, app_assoc. split; [reflexivity|].
      rewrite app_length. cbn [List.length] in *. lia.
Qed.

Lemma exec_runs {S} k dt stop print L (init body : M S unit) reps s s' t fuel : (1 <= k)%nat -> dge (flow_at dt k) stop = true -> (forall i, (1 <= i < k)%nat -> dge (flow_at dt i) stop = false) ->
  (forall f, dge f (flow_at print L) = true -> dge f stop = true) -> (k <= fuel)%nat -> 1 <= reps < UINT_MOD ->
  M_Examples.exec_time reps (init ;;; M_Examples.passes k body) s = Ret s' tt ->
  exists t', M_Examples.exec_time reps (upd_snd time_reset ;;; on_fst init ;;; for_ever fuel dt stop print body) (s, t) = Ret (s', t') tt /\ timed k dt (L * Z.to_nat reps) t t'.
Proof.
  intros Hk HT HF HL Hf Hr H. unfold M_Examples.exec_time in *. rewrite for_uint_run in H by lia. rewrite for_uint_run by lia.
  destruct (all_runs k dt L _ _ (fun s s' t => one_run k dt stop print L init body s s' t fuel Hk HT HF HL Hf) _ _ _ t H) as (t' & E & T & _).
  exists t'. split; [exact E|]. rewrite length_zrange in T. replace (reps - 0) with reps in T by ring. apply T. intros X.
  assert (List.length (zrange 0 reps) = 0%nat) by (rewrite X; reflexivity). rewrite length_zrange in H0. lia.
Qed.

Lemma bind_ret {S A B} (m : M S A) (f : A -> M S B) s s' b : bind m f s = Ret s' b -> exists s1 a, m s = Ret s1 a /\ f a s1 = Ret s' b.
Proof. unfold bind. destruct (m s); intros H; [eauto|discriminate|discriminate]. Qed.
Lemma fst_ret {S T A B} (m : M S A) (f : A -> M (S * T) B) s s1 a t : m s = Ret s1 a -> bind (on_fst m) f (s, t) = f a (s1, t).
Proof. intros H. unfold bind, on_fst. rewrite H. reflexivity. Qed.

Section Runs.
Context {V : Type}.
Import M_Examples.

Lemma heat1_timed chk fuel N reps k (xf : Z -> V) cosf exact lap adv w w' t : (1 <= k)%nat -> dge (flow_at (dt1 N) k) time_stop1 = true ->
  (forall i, (1 <= i < k)%nat -> dge (flow_at (dt1 N) i) time_stop1 = false) -> (k <= fuel)%nat -> 1 <= reps < UINT_MOD ->
  heat1 chk N reps k xf cosf exact lap adv w = Ret w' tt ->
  exists t', heat1_run chk fuel N reps xf cosf exact lap adv (w, t) = Ret (w', t') tt /\ timed k (dt1 N) (21 * Z.to_nat reps) t t'.
Proof.
  intros Hk HT HF Hf Hr H. unfold heat1 in H.
  apply bind_ret in H. destruct H as (s1 & a1 & E1 & H). apply bind_ret in H. destruct H as (s2 & a2 & E2 & H). apply bind_ret in H. destruct H as (s3 & a3 & E3 & H).
  apply bind_ret in H. destruct H as (s4 & [] & E4 & H). apply bind_ret in H. destruct H as (s5 & [] & E5 & H).
  assert (HL : forall f, dge f (flow_at time_print1 21) = true -> dge f time_stop1 = true).
  { destruct (lit_within 5 10) as (T & E & R & W); try (apply Z.leb_le || apply Z.ltb_lt; reflexivity). apply (lines_bound time_stop1 T 5 10); try assumption; apply Z.leb_le || apply Z.ltb_lt; reflexivity. }
  destruct (exec_runs k (dt1 N) time_stop1 time_print1 21 _ _ reps s4 s5 t fuel Hk HT HF HL Hf Hr E5) as (t' & E6 & T).
  exists t'. split; [|exact T]. unfold heat1_run. rewrite (fst_ret _ _ _ _ _ _ E1), (fst_ret _ _ _ _ _ _ E2), (fst_ret _ _ _ _ _ _ E3), (fst_ret _ _ _ _ _ _ E4).
  unfold bind at 1. rewrite E6. unfold on_fst. rewrite H. reflexivity.
Qed.

Lemma heat2_timed chk fuel N reps k (xf yf : Z -> V) ini exact neg lapx lapy adv w w' t : 1 <= N <= 2 ^ 29 -> (1 <= k)%nat -> dge (flow_at (dt2 N) k) time_stop2 = true ->
  (forall i, (1 <= i < k)%nat -> dge (flow_at (dt2 N) i) time_stop2 = false) -> (k <= fuel)%nat -> 1 <= reps < UINT_MOD ->
  heat2 chk (N + 1) (2 * N + 1) reps k xf yf ini exact neg lapx lapy adv w = Ret w' tt ->
  exists t', heat2_run chk fuel N reps xf yf ini exact neg lapx lapy adv (w, t) = Ret (w', t') tt /\ timed k (dt2 N) (21 * Z.to_nat reps) t t'.
Proof.
  intros HN Hk HT HF Hf Hr H. change (2 ^ 29) with 536870912 in HN. unfold heat2, solve2 in H.
  apply bind_ret in H. destruct H as (s3 & [] & E3 & H).
  apply bind_ret in H. destruct H as (s4 & [] & E4 & H). apply bind_ret in H. destruct H as (s5 & [] & E5 & H).
  assert (HL : forall f, dge f (flow_at time_print2 21) = true -> dge f time_stop2 = true).
  { destruct (lit_within 1 10) as (T & E & R & W); try (apply Z.leb_le || apply Z.ltb_lt; reflexivity). apply (lines_bound time_stop2 T 1 10); try assumption; apply Z.leb_le || apply Z.ltb_lt; reflexivity. }
  destruct (exec_runs k (dt2 N) time_stop2 time_print2 21 _ _ reps s4 s5 t fuel Hk HT HF HL Hf Hr E5) as (t' & E6 & T).
  exists t'. split; [|exact T]. unfold heat2_run.
  rewrite (uwrap_small (N + 1)) by (unfold in_uint; lia). rewrite (uwrap_small (2 * N)) by (unfold in_uint; lia). rewrite (uwrap_small (2 * N + 1)) by (unfold in_uint; lia).
  rewrite (fst_ret _ _ _ _ _ _ E3), (fst_ret _ _ _ _ _ _ E4).
  unfold bind at 1. rewrite E6. unfold on_fst. rewrite H. reflexivity.
Qed.

(** With the number of passes known. *)
Lemma heat1_with F chk N reps k (xf : Z -> V) cosf exact lap adv t0 fuel : 2 <= N <= 1073741824 -> 1 <= reps < UINT_MOD -> (forall t, (t < 3)%nat -> F t = false) ->
  (1 <= k)%nat -> dge (flow_at (dt1 N) k) time_stop1 = true -> (forall i, (1 <= i < k)%nat -> dge (flow_at (dt1 N) i) time_stop1 = false) -> (k <= fuel)%nat ->
  exists h w aw t, heat1_run chk fuel N reps xf cosf exact lap adv (start F, t0) = Ret (w, t) tt /\ after F h w aw /\ intact aw /\
    timed k (dt1 N) (21 * Z.to_nat reps) t0 t /\
    forall i, 0 <= i < N ->
      cell w (u1 0 i) (Some (Nat.iter k (heat_step N lap adv) (fun i => cosf (xf i)) i)) /\
      cell w (u1 1 i) (Some (exact (xf i))).
Proof.
  intros HN Hr HF Hk A B Hf. destruct (L_Examples.heat1_final F chk N reps k xf cosf exact lap adv HN Hr HF) as (h & w & aw & E & C & D & G).
  destruct (heat1_timed chk fuel N reps k xf cosf exact lap adv _ _ t0 Hk A B Hf Hr E) as (t & E' & T). exists h, w, aw, t. auto 10.
Qed.

Lemma heat2_with F chk N reps k (xf yf : Z -> V) ini exact neg lapx lapy adv t0 fuel : 1 <= N -> 2 * ((N + 3) * (2 * N + 3)) < UINT_MOD -> 1 <= reps < UINT_MOD ->
  (forall t, (t < 6)%nat -> F t = false) ->
  (1 <= k)%nat -> dge (flow_at (dt2 N) k) time_stop2 = true -> (forall i, (1 <= i < k)%nat -> dge (flow_at (dt2 N) i) time_stop2 = false) -> (k <= fuel)%nat ->
  exists h w aw t, heat2_run chk fuel N reps xf yf ini exact neg lapx lapy adv (start F, t0) = Ret (w, t) tt /\ after F h w aw /\ intact aw /\
    timed k (dt2 N) (21 * Z.to_nat reps) t0 t /\
    forall i j, 0 <= i < N + 1 -> 0 <= j < 2 * N + 1 ->
      cell w (u2 0 i j) (Some (Nat.iter k (heat_step2 (N + 1) (2 * N + 1) neg lapx lapy adv) (fun i j => ini (xf i) (yf j)) i j)) /\
      cell w (u2 1 i j) (Some (exact (xf i) (yf j))).
Proof.
  intros HN HM Hr HF Hk A B Hf. destruct (L_Examples.heat2_final F chk (N + 1) (2 * N + 1) reps k xf yf ini exact neg lapx lapy adv ltac:(lia) ltac:(lia)) with (2 := Hr) (3 := HF) as (h & w & aw & E & C & D & G).
  { replace (N + 1 + 2) with (N + 3) by ring. replace (2 * N + 1 + 2) with (2 * N + 3) by ring. exact HM. }
  assert (HN' : 1 <= N <= 2 ^ 29) by (change (2 ^ 29) with 536870912; nia).
  destruct (heat2_timed chk fuel N reps k xf yf ini exact neg lapx lapy adv _ _ t0 HN' Hk A B Hf Hr E) as (t & E' & T). exists h, w, aw, t. auto 10.
Qed.

End Runs.

(** ** The number of passes *)

Lemma stop1_num : num64 time_stop1 = Fin (2 ^ 1073).
Proof. reflexivity. Qed.
Lemma stop1_within : within 0 (2 ^ 1073) 1 2.
Proof. rewrite within_def. change (down 0) with 1. change (one 0) with 1. change (up 0) with 1. change U with (2 ^ 1073 * 2). lia. Qed.

Lemma passes1_exist N : 2 <= N <= 2 ^ 25 -> exists k, first_reach 30 (62831852 * 62831852) (10 * (2 * (10000000 * (N - 1) * (10000000 * (N - 1))))) (2 ^ 1073) k /\
  dge (flow_at (dt1 N) k) time_stop1 = true /\ (forall i, (1 <= i < k)%nat -> dge (flow_at (dt1 N) i) time_stop1 = false) /\
  exists c, num64 (flow_at (dt1 N) k) = Fin c /\ within (30 + k) c (Z.of_nat k * (62831852 * 62831852)) (10 * (2 * (10000000 * (N - 1) * (10000000 * (N - 1))))) /\ 2 ^ 1073 <= c.
Proof.
  intros HN. change (2 ^ 25) with 33554432 in HN. destruct (dt1_within N) as (w & Ew & Ww); [change (2 ^ 30) with 1073741824; lia|].
  set (q := 10 * (2 * (10000000 * (N - 1) * (10000000 * (N - 1))))) in *. assert (Q0 : 2000000000000000 <= q <= 2000000000000000 * (33554432 * 33554432)) by (unfold q; nia). clearbody q.
  destruct (steps_exist 30 (dt1 N) time_stop1 w (62831852 * 62831852) q (2 ^ 1073) Ew stop1_num ltac:(lia) ltac:(lia) Ww) as (k & A & B & C & _ & D).
  - reflexivity.
  - apply Z.leb_le. reflexivity.
  - change U with (2 * 2 ^ 1073). assert (P : 0 < 2 ^ 1073) by reflexivity. revert P. generalize (2 ^ 1073). change (2 ^ 50) with 1125899906842624. intros z P. nia.
  - apply Z.leb_le. reflexivity.
  - change (2 ^ 90) with (4096 * 2 ^ 78). assert (1 <= 2 ^ 78) by (apply Z.leb_le; reflexivity). nia.
  - exists k. auto.
Qed.

Lemma passes2_exist N : 1 <= N <= 2 ^ 25 -> exists k T, num64 time_stop2 = Fin T /\ within 1 T 1 10 /\
  first_reach 30 (62831852 * 62831852) (10 * (4 * (10000000 * N * (10000000 * N)))) T k /\
  dge (flow_at (dt2 N) k) time_stop2 = true /\ (forall i, (1 <= i < k)%nat -> dge (flow_at (dt2 N) i) time_stop2 = false) /\
  exists c, num64 (flow_at (dt2 N) k) = Fin c /\ T <= c.
Proof.
  intros HN. change (2 ^ 25) with 33554432 in HN. destruct (dt2_within N) as (w & Ew & Ww); [change (2 ^ 29) with 536870912; lia|].
  destruct (lit_within 1 10) as (T & ET & _ & WT); try (apply Z.leb_le || apply Z.ltb_lt; reflexivity).
  set (q := 10 * (4 * (10000000 * N * (10000000 * N)))) in *. assert (Q0 : 4000000000000000 <= q <= 4000000000000000 * (33554432 * 33554432)) by (unfold q; nia). clearbody q.
  pose proof (within_half 1 T 1 10 ltac:(apply Z.leb_le; reflexivity) ltac:(lia) WT) as [H1 H2]. pose proof U_pos as PU.
  destruct (steps_exist 30 (dt2 N) time_stop2 w (62831852 * 62831852) q T Ew ET ltac:(lia) ltac:(lia) Ww) as (k & A & B & C & _ & c & Ec & _ & Lc).
  - lia.
  - apply Z.leb_le. reflexivity.
  - assert (H3 : 10 * T <= 2 * U) by lia. revert PU H3. generalize U. clear - Q0. change (2 ^ 50) with 1125899906842624. intros z P H3. assert (5 * (T * q) <= z * q) by nia.
    assert (z * q <= z * (4000000000000000 * (33554432 * 33554432))) by (apply Z.mul_le_mono_nonneg_l; lia). lia.
  - assert (1 <= 2 ^ 90) by (apply Z.leb_le; reflexivity). assert (T <= 1 * U) by lia. assert (1 * U <= 2 ^ 90 * U) by (apply Z.mul_le_mono_nonneg_r; lia). lia.
  - change (2 ^ 90) with (4096 * 2 ^ 78). assert (1 <= 2 ^ 78) by (apply Z.leb_le; reflexivity). nia.
  - exists k, T. eauto 10.
Qed.

(** The numbers of the files. *)
Lemma count1 k : Z.of_nat k = 6332575 -> dge (flow_at (dt1 5001) k) time_stop1 = true /\ forall i, (1 <= i < k)%nat -> dge (flow_at (dt1 5001) i) time_stop1 = false.
Proof.
  intros Hk. destruct (dt1_within 5001) as (w & Ew & Ww); [split; apply Z.leb_le; reflexivity|].
  apply (counts_exactly 30 0 (dt1 5001) time_stop1 w (2 ^ 1073) _ _ 1 2 k Ew stop1_num) with (5 := Ww) (6 := stop1_within);
    rewrite ?Nat2Z.inj_add, ?Hk; try (apply Z.leb_le || apply Z.ltb_lt; reflexivity). lia.
Qed.

Lemma count2 k : Z.of_nat k = 25331 -> dge (flow_at (dt2 500) k) time_stop2 = true /\ forall i, (1 <= i < k)%nat -> dge (flow_at (dt2 500) i) time_stop2 = false.
Proof.
  intros Hk. destruct (dt2_within 500) as (w & Ew & Ww); [split; apply Z.leb_le; reflexivity|].
  destruct (lit_within 1 10) as (T & ET & _ & WT); try (apply Z.leb_le || apply Z.ltb_lt; reflexivity).
  apply (counts_exactly 30 1 (dt2 500) time_stop2 w T _ _ 1 10 k Ew ET) with (5 := Ww) (6 := WT);
    rewrite ?Nat2Z.inj_add, ?Hk; try (apply Z.leb_le || apply Z.ltb_lt; reflexivity). lia.
Qed.

(** ** What is printed *)

Lemma tenths_pair c m : 100001 <= m <= 999998 -> 2 * Z.abs (c * 10 ^ 6 - m * U) < U -> gen_pair c = (m, -1).
Proof.
  intros Hm H. change (10 ^ 6) with 1000000 in H. pose proof U_pos as PU.
  assert (C : 100001 * U < 1000000 * c + U < 1000000 * U) by nia.
  unfold gen_pair. destruct (Z.eqb_spec c 0); [lia|]. cbv zeta. fold U.
  assert (CB : 0 < c < 2 ^ 2098).
  { split; [lia|]. apply (Z.lt_trans _ U); [lia|]. unfold U. apply Z.pow_lt_mono_r; lia. }
  destruct (exponent_ok c CB) as [L1 L2]. fold U in L1, L2. set (e := exp10 c U) in *. clearbody e. unfold le10 in L1, L2.
  assert (E : e = -1).
  { destruct (Z.leb_spec 0 e) as [He|He].
    - exfalso. assert (1 <= 10 ^ e) by (apply (Z.pow_le_mono_r 10 0); lia). nia.
    - destruct (Z.leb_spec 0 (e + 1)) as [He'|He']; [lia|exfalso]. apply L2.
      assert (10 <= 10 ^ (- (e + 1))) by (apply (Z.pow_le_mono_r 10 1); lia). nia. }
  subst e. change (0 <=? 5 - -1) with true. cbv iota. change (5 - -1) with 6.
  rewrite (round_div_at (c * 10 ^ 6) U m); [|lia|exact PU|change (10 ^ 6) with 1000000; lia].
  destruct (Z.eqb_spec m (10 ^ 6)) as [X|X]; [change (10 ^ 6) with 1000000 in X; lia|reflexivity].
Qed.

Lemma text1 k v : Z.of_nat k = 6332575 -> v = flow_at (dt1 5001) k -> fmt_g v = "0.5"%string.
Proof.
  intros Hk ->. destruct (dt1_within 5001) as (w & Ew & Ww); [split; apply Z.leb_le; reflexivity|].
  destruct (count1 k Hk) as [G _].
  destruct (flow_within 30 (dt1 5001) w (62831852 * 62831852) (10 * (2 * (10000000 * (5001 - 1) * (10000000 * (5001 - 1))))) Ew ltac:(reflexivity) ltac:(reflexivity) Ww k) as (c & Ec & Rc & Wc); rewrite ?Nat2Z.inj_add, ?Hk; try (apply Z.leb_le; reflexivity).
  rewrite (dge_fin _ _ c _ Ec stop1_num) in G. apply Z.leb_le in G.
  assert (L : c < (2 ^ 21 + 1) * 2 ^ 1052).
  { apply (within_lt (30 + k) 0 c _ _ _ (2 ^ 21 + 1) (2 ^ 22)) with (5 := Wc); rewrite ?Nat2Z.inj_add, ?Hk; try (apply Z.ltb_lt; reflexivity).
    rewrite within_def. change (down 0) with 1. change (one 0) with 1. change (up 0) with 1. change U with (2 ^ 1052 * 2 ^ 22). lia. }
  assert (GP : gen_pair c = (500000, -1)).
  { apply tenths_pair; [lia|]. change (2 ^ 1073) with (2 ^ 21 * 2 ^ 1052) in G. change U with (2 ^ 22 * 2 ^ 1052). assert (P : 0 < 2 ^ 1052) by reflexivity. revert P G L. generalize (2 ^ 1052).
    change (2 ^ 22) with 4194304. change (2 ^ 21) with 2097152. change (10 ^ 6) with 1000000. clear. intros. lia. }
  assert (C0 : 0 <= c). { apply (Z.le_trans _ (2 ^ 1073)); [discriminate|exact G]. }
  unfold fmt_g, with_sign. rewrite Ec, Z.div_small by exact Rc. rewrite Z.abs_eq by exact C0. unfold fmt_gen. rewrite GP. reflexivity.
Qed.

Lemma text2 k v : Z.of_nat k = 25331 -> v = flow_at (dt2 500) k -> fmt_g v = "0.100003"%string.
Proof.
  intros Hk ->. destruct (dt2_within 500) as (w & Ew & Ww); [split; apply Z.leb_le; reflexivity|].
  destruct (flow_within 30 (dt2 500) w (62831852 * 62831852) (10 * (4 * (10000000 * 500 * (10000000 * 500)))) Ew ltac:(reflexivity) ltac:(reflexivity) Ww k) as (c & Ec & Rc & Wc); rewrite ?Nat2Z.inj_add, ?Hk; try (apply Z.leb_le; reflexivity).
  assert (L : c < 419445 * 2 ^ 1052).
  { apply (within_lt (30 + k) 0 c _ _ _ 419445 (2 ^ 22)) with (5 := Wc); rewrite ?Nat2Z.inj_add, ?Hk; try (apply Z.ltb_lt; reflexivity).
    rewrite within_def. change (down 0) with 1. change (one 0) with 1. change (up 0) with 1. change U with (2 ^ 1052 * 2 ^ 22). lia. }
  assert (G : 419441 * 2 ^ 1052 < c).
  { apply (within_lt 0 (30 + k) _ c 419441 (2 ^ 22) _ _) with (6 := Wc); rewrite ?Nat2Z.inj_add, ?Hk; try (apply Z.ltb_lt; reflexivity).
    rewrite within_def. change (down 0) with 1. change (one 0) with 1. change (up 0) with 1. change U with (2 ^ 1052 * 2 ^ 22). lia. }
  assert (GP : gen_pair c = (100003, -1)).
  { apply tenths_pair; [lia|]. change U with (2 ^ 22 * 2 ^ 1052). assert (P : 0 < 2 ^ 1052) by reflexivity. revert P G L. generalize (2 ^ 1052).
    change (2 ^ 22) with 4194304. change (10 ^ 6) with 1000000. clear. intros. lia. }
  assert (C0 : 0 <= c). { apply (Z.le_trans _ (419441 * 2 ^ 1052)); [discriminate|lia]. }
  unfold fmt_g, with_sign. rewrite Ec, Z.div_small by exact Rc. rewrite Z.abs_eq by exact C0. unfold fmt_gen. rewrite GP. reflexivity.
Qed.
