(** Lemmas for P_FMul.v *)

From Coq Require Import ZArith List Bool Lia Permutation.
From Verif Require Import Base M_Bytes M_Scan M_Flags M_Loop M_RS1 M_RS2 M_RS3 Spec Spec_Loop Spec_Tec M_Reduce Spec_Reduce M_FSum Spec_FSum M_FMul Spec_FMul.
From Verif Require Import L_Base L_Loop L_TecMin L_ScanF L_Extract L_Nearest L_Settle L_Reduce L_FSum.
Import ListNotations.
Open Scope Z_scope.

(** ** Powers of 1 - 2^-53 and 1 + 2^-53 *)
Definition down (n : nat) : Z := (2 ^ 53 - 1) ^ Z.of_nat n.
Lemma down_S n : down (S n) = (2 ^ 53 - 1) * down n.
Proof. unfold down. rewrite Nat2Z.inj_succ, Z.pow_succ_r by lia. reflexivity. Qed.
Lemma down_pos n : 0 < down n.
Proof. unfold down. apply Z.pow_pos_nonneg; lia. Qed.
Lemma up_pos n : 0 < up n.
Proof. unfold up. apply Z.pow_pos_nonneg; lia. Qed.
Lemma down_one n : down n <= one n.
Proof.
  induction n as [|n IH]; [reflexivity|]. rewrite down_S, one_S. pose proof (down_pos n). assert (0 < 2 ^ 53) by reflexivity.
  revert H0 H IH. generalize (2 ^ 53), (one n), (down n). clear. intros. nia.
Qed.
Lemma up_le n : up n * (2 ^ 53 - Z.of_nat n) <= 2 ^ 53 * one n.
Proof.
  induction n as [|n IH]; [reflexivity|]. rewrite up_S, one_S, Nat2Z.inj_succ. pose proof (up_pos n) as P. assert (Q : 0 < 2 ^ 53) by reflexivity.
  assert (R : 0 <= Z.of_nat n) by lia. revert P Q R IH. generalize (2 ^ 53), (one n), (up n), (Z.of_nat n). clear. intros B o u k P Q R IH.
  replace ((B + 1) * u * (B - Z.succ k)) with (B * (u * (B - k)) - u * (k + 1)) by ring. nia.
Qed.
Lemma down_le n : one n * (2 ^ 53 - Z.of_nat n) <= 2 ^ 53 * down n.
Proof.
  induction n as [|n IH]; [reflexivity|]. rewrite down_S, one_S, Nat2Z.inj_succ. pose proof (one_pos n) as P. assert (Q : 1 < 2 ^ 53) by reflexivity.
  assert (R : 0 <= Z.of_nat n) by lia. revert P Q R IH. generalize (2 ^ 53), (one n), (down n), (Z.of_nat n). clear. intros B o d k P Q R IH.
  assert (E : B * o * (B - Z.succ k) = (B - 1) * (o * (B - k)) - o * k) by (unfold Z.succ; ring). rewrite E.
  replace (B * ((B - 1) * d)) with ((B - 1) * (B * d)) by ring. nia.
Qed.
Lemma up_half n : Z.of_nat n <= 2 ^ 52 -> up n <= 2 * one n.
Proof.
  intros H. pose proof (up_le n) as L. pose proof (up_pos n) as P. change (2 ^ 53) with (2 * 2 ^ 52) in L. assert (Q : 0 < 2 ^ 52) by reflexivity.
  revert H L P Q. generalize (2 ^ 52), (one n), (up n), (Z.of_nat n). clear. intros. nia.
Qed.
Lemma down_half n : Z.of_nat n <= 2 ^ 52 -> one n <= 2 * down n.
Proof.
  intros H. pose proof (down_le n) as L. pose proof (one_pos n) as P. change (2 ^ 53) with (2 * 2 ^ 52) in L. assert (Q : 0 < 2 ^ 52) by reflexivity.
  revert H L P Q. generalize (2 ^ 52), (one n), (down n), (Z.of_nat n). clear. intros. nia.
Qed.

(** ** One rounding *)
Lemma round_rel a b : 0 < a -> 0 < b -> a <= DMAX * b -> 2 ^ 52 * b <= a * U ->
  exists w, num64 (round_f64 a b) = Fin w /\ 0 <= w /\ 0 <= round_f64 a b < 2 ^ 63 /\
    (2 ^ 53 - 1) * (a * U) <= 2 ^ 53 * (w * b) <= (2 ^ 53 + 1) * (a * U).
Proof.
  intros Ha Hb HM HL. destruct (round_f64_grid a b Ha Hb HM) as (m & k & E & Hk & M0 & R & NEAR & LOW).
  exists (m * 2 ^ k). split; [exact E|]. assert (HK : 0 < 2 ^ k) by (apply Z.pow_pos_nonneg; lia). split; [nia|]. split; [exact R|].
  assert (F : 2 ^ 52 * (b * 2 ^ k) <= a * U).
  { destruct (Z.eq_dec k 0) as [->|N]; [change (2 ^ 0) with 1; rewrite Z.mul_1_r; exact HL|apply LOW; lia]. }
  change (2 ^ 53) with (2 * 2 ^ 52). assert (Q : 0 < 2 ^ 52) by reflexivity.
  set (w := m * 2 ^ k * b) in *. set (X := a * U) in *. set (y := b * 2 ^ k) in *. clearbody w X y.
  revert NEAR F Q. generalize (2 ^ 52). clear. intros B N F Q. assert (2 * B * Z.abs (w - X) <= X) by nia. nia.
Qed.

(** The same with a sign in front. *)
Lemma num64_signed s r w : 0 <= r < 2 ^ 63 -> num64 r = Fin w -> num64 ((if s : bool then 2 ^ 63 else 0) + r) = Fin (if s then - w else w).
Proof. intros Hr E. destruct s; [apply num64_minus; assumption|exact E]. Qed.

(** ** [within] *)
Lemma within_def n x p q : within n x p q <-> down n * (p * U) <= one n * (x * q) <= up n * (p * U).
Proof. reflexivity. Qed.
Lemma within_more n x p q : 0 <= p -> 0 <= x * q -> within n x p q -> within (S n) x p q.
Proof.
  rewrite !within_def, down_S, one_S, up_S. intros Hp Hx [H1 H2]. pose proof U_pos as HU. assert (Q : 1 < 2 ^ 53) by reflexivity.
  assert (P : 0 <= p * U) by nia. pose proof (down_pos n) as D. pose proof (up_pos n) as V. pose proof (one_pos n) as O.
  revert Q P H1 H2 D V O. generalize (2 ^ 53), (one n), (up n), (down n), (p * U). clear - Hx. intros. split; nia.
Qed.
Lemma within_sum n x y p r q : within n x p q -> within n y r q -> within n (x + y) (p + r) q.
Proof. rewrite !within_def, !Z.mul_add_distr_r, !Z.mul_add_distr_l. lia. Qed.
(** A rounding. *)
Lemma within_round n x w p q : 0 <= p -> 0 <= q -> (2 ^ 53 - 1) * x <= 2 ^ 53 * w <= (2 ^ 53 + 1) * x -> within n x p q -> within (S n) w p q.
Proof.
  rewrite !within_def, down_S, one_S, up_S. intros Hp Hq [H1 H2] [H3 H4]. assert (Q : 1 < 2 ^ 53) by reflexivity.
  pose proof (one_pos n) as O. revert Q H1 H2 H3 H4 O. generalize (2 ^ 53), (one n), (up n), (down n), (p * U). clear - Hq. intros B o u d P Q H1 H2 H3 H4 O.
  assert (E1 : (B - 1) * x * (o * q) <= B * w * (o * q)) by (apply Z.mul_le_mono_nonneg_r; nia).
  assert (E2 : B * w * (o * q) <= (B + 1) * x * (o * q)) by (apply Z.mul_le_mono_nonneg_r; nia).
  split.
  - replace ((B - 1) * d * P) with ((B - 1) * (d * P)) by ring. replace (B * o * (w * q)) with (B * w * (o * q)) by ring. nia.
  - replace ((B + 1) * u * P) with ((B + 1) * (u * P)) by ring. replace (B * o * (w * q)) with (B * w * (o * q)) by ring. nia.
Qed.
(** Sizes. *)
Lemma within_half n x p q : Z.of_nat n <= 2 ^ 52 -> 0 <= p -> within n x p q -> p * U <= 2 * (x * q) <= 4 * (p * U).
Proof.
  rewrite within_def. intros Hn Hp [H1 H2]. pose proof (up_half n Hn) as A. pose proof (down_half n Hn) as B. pose proof U_pos as HU.
  assert (P : 0 <= p * U) by nia. pose proof (one_pos n) as O. pose proof (down_pos n) as D. pose proof (up_pos n) as V.
  revert P H1 H2 A B O D V. generalize (one n), (up n), (down n), (p * U), (x * q). clear. intros. split; nia.
Qed.
Lemma within_zero n q : within n 0 0 q.
Proof. rewrite within_def. cbn. rewrite !Z.mul_0_r. lia. Qed.
Lemma within_nonneg n x p q : 0 <= p -> 0 < q -> within n x p q -> 0 <= x.
Proof.
  rewrite within_def. intros Hp Hq [H _]. pose proof (down_pos n) as D. pose proof (one_pos n) as O. pose proof U_pos as HU.
  assert (P : 0 <= p * U) by nia. revert P H D O. generalize (one n), (down n), (p * U). clear - Hq. intros. nia.
Qed.

(** ** Division by a whole number, conversion *)
Lemma DMAX_big : 2 ^ 100 <= DMAX.
Proof. apply Z.leb_le. reflexivity. Qed.
Lemma U_big : 2 ^ 200 <= U.
Proof. apply Z.leb_le. reflexivity. Qed.
Lemma dmax_U : 2 ^ 100 * U <= double_max.
Proof. rewrite <- dmax_eq. apply Z.mul_le_mono_nonneg_r; [pose proof U_pos; lia|exact DMAX_big]. Qed.

Lemma of_whole_within d : 0 <= d < 2 ^ 64 -> exists v, num64 (of_whole d) = Fin v /\ 0 <= of_whole d < 2 ^ 63 /\ within 1 v d 1.
Proof.
  intros Hd. unfold of_whole. destruct (Z.ltb_spec d 0); [lia|]. rewrite Z.abs_eq, Z.add_0_l by lia.
  destruct (Z.eq_dec d 0) as [->|N]; [exists 0; split; [reflexivity|]; split; [change (round_f64 0 1) with 0; lia|apply within_zero]|].
  pose proof DMAX_big as B1. pose proof U_big as B2.
  destruct (round_rel d 1 ltac:(lia) ltac:(lia)) as (w & E & _ & R & W).
  - assert (2 ^ 64 <= 2 ^ 100) by (apply Z.pow_le_mono_r; lia). lia.
  - rewrite Z.mul_1_r. assert (2 ^ 52 <= 2 ^ 200) by (apply Z.pow_le_mono_r; lia). apply (Z.le_trans _ U); [lia|].
    rewrite <- (Z.mul_1_l U) at 1. apply Z.mul_le_mono_nonneg_r; lia.
  - exists w. split; [exact E|]. split; [exact R|]. rewrite within_def, Z.mul_1_r in *. unfold down, one, up. change (Z.of_nat 1) with 1. rewrite !Z.pow_1_r. change (53 * 1) with 53. lia.
Qed.

(** Small whole numbers are exact. *)
Lemma of_whole_exact n : 0 < n < 2 ^ 53 -> num64 (of_whole n) = Fin (n * U) /\ 0 <= of_whole n < 2 ^ 63.
Proof.
  intros Hn. unfold of_whole. destruct (Z.ltb_spec n 0); [lia|]. rewrite Z.abs_eq, Z.add_0_l by lia.
  destruct (representable 1074 n) as (b & B & E); [lia|exact Hn|].
  rewrite (round_f64_value b (n * 2 ^ Z.of_nat 1074) n 1 B E ltac:(lia)); [split; [exact E|exact B]|].
  change (2 ^ Z.of_nat 1074) with U. fold U. ring.
Qed.

Lemma dsign_plus x y : 0 <= x < 2 ^ 63 -> 0 <= y < 2 ^ 63 -> dsign x y = 0.
Proof. intros A B. unfold dsign. destruct (Z.leb_spec (2 ^ 63) x); [lia|]. destruct (Z.leb_spec (2 ^ 63) y); [lia|]. reflexivity. Qed.

Lemma div_within n x v p q c : 0 <= x < 2 ^ 63 -> num64 x = Fin v -> 0 <= p -> 0 < q -> within n v p q -> 0 < c < 2 ^ 53 ->
  v <= 2 ^ 100 * U -> v = 0 \/ 2 ^ 52 * c <= v ->
  exists w, num64 (ddiv x (of_whole c)) = Fin w /\ 0 <= ddiv x (of_whole c) < 2 ^ 63 /\ within (S n) w p (q * c).
Proof.
  intros Hx Ev Hp Hq W Hc HU HL. destruct (of_whole_exact c Hc) as [Ec Rc]. pose proof (within_nonneg _ _ _ _ Hp Hq W) as V0. pose proof U_pos as PU.
  unfold ddiv. rewrite Ev, Ec, (dsign_plus _ _ Hx Rc), Z.add_0_l.
  assert (PC : 0 < c * U) by nia. destruct (Z.eqb_spec (c * U) 0) as [Z0|_]; [lia|]. rewrite !Z.abs_eq by lia.
  destruct HL as [->|HL].
  - exists 0. change (round_f64 0 (c * U)) with 0. split; [reflexivity|]. split; [lia|]. clear - W Hp PU Hq Hc.
    assert (p = 0). { rewrite within_def in W. pose proof (down_pos n). rewrite Z.mul_0_l, Z.mul_0_r in W. destruct W as [W _].
      assert (p * U <= 0) by nia. nia. }
    subst p. apply within_zero.
  - destruct (round_rel v (c * U)) as (w & E & _ & R & K); [nia|exact PC| | |].
    + apply (Z.le_trans _ _ _ HU). pose proof DMAX_big. assert (G : 0 < 2 ^ 100) by reflexivity. clear - H G Hc PU. revert H G. generalize (2 ^ 100), DMAX. intros.
      replace (z0 * (c * U)) with (z0 * c * U) by ring. apply Z.mul_le_mono_nonneg_r; nia.
    + rewrite Z.mul_assoc. apply Z.mul_le_mono_nonneg_r; lia.
    + exists w. split; [exact E|]. split; [exact R|].
      (* (2^53 - 1) v <= 2^53 w c <= ... *)
      assert (K' : (2 ^ 53 - 1) * v <= 2 ^ 53 * (w * c) <= (2 ^ 53 + 1) * v).
      { revert K PU. clear. generalize (2 ^ 53), U. intros B u [K1 K2] P. split; nia. }
      pose proof (within_round n v (w * c) p q Hp ltac:(lia) K' W) as H. rewrite within_def in *.
      replace (w * (q * c)) with (w * c * q) by ring. exact H.
Qed.

(** ** exec_time *)
Lemma dadd_plus x y a b : 0 <= x < 2 ^ 63 -> num64 x = Fin a -> num64 y = Fin b -> 0 <= a + b -> a + b <= double_max -> 0 <= dadd x y < 2 ^ 63.
Proof.
  intros Hx Ex Ey H0 HM. unfold dadd. rewrite Ex, Ey. cbv zeta. destruct (Z.leb_spec (2 ^ 63) x); [lia|]. cbn [andb].
  destruct (Z.eqb_spec (a + b) 0) as [E|E]; [lia|]. destruct (Z.ltb_spec 0 (a + b)); [|lia].
  destruct (round_near (a + b)) as (w & _ & _ & R & _); [lia|exact HM|exact R].
Qed.

Lemma add_within n x y a b p r q : 0 <= x < 2 ^ 63 -> num64 x = Fin a -> num64 y = Fin b -> 0 <= p -> 0 <= r -> 0 < q ->
  within n a p q -> within n b r q -> a + b <= 2 ^ 100 * U ->
  exists c, num64 (dadd x y) = Fin c /\ 0 <= dadd x y < 2 ^ 63 /\ within (S n) c (p + r) q.
Proof.
  intros Hx Ex Ey Hp Hr Hq W1 W2 HB. pose proof (within_nonneg _ _ _ _ Hp Hq W1) as A0. pose proof (within_nonneg _ _ _ _ Hr Hq W2) as B0.
  destruct (dadd_near x y a b Ex Ey) as (c & E & _ & N & _).
  { rewrite Z.abs_eq by lia. apply (Z.le_trans _ _ _ HB dmax_U). }
  exists c. split; [exact E|].
  split; [apply (dadd_plus x y a b Hx Ex Ey); [lia|apply (Z.le_trans _ _ _ HB dmax_U)]|]. apply (within_round n (a + b)); [lia|lia| |apply within_sum; assumption].
  rewrite (Z.abs_eq (a + b)) in N by lia. assert (Q : 0 < 2 ^ 53) by reflexivity. revert N Q. generalize (2 ^ 53). clear. intros. nia.
Qed.

(** A difference of the clock in seconds. *)
Lemma second_within d : 0 <= d < 2 ^ 63 ->
  exists v, num64 (ddiv (of_whole d) (of_whole CLOCKS_PER_SEC)) = Fin v /\ within 2 v d 1000000.
Proof.
  intros Hd. destruct (of_whole_within d) as (v & E & R & W); [change (2 ^ 64) with (2 * 2 ^ 63); lia|].
  pose proof (within_half 1 v d 1 ltac:(lia) ltac:(lia) W) as H. pose proof U_pos as PU. rewrite Z.mul_1_r in H.
  destruct (div_within 1 (of_whole d) v d 1 CLOCKS_PER_SEC R E) as (w & Ew & _ & Ww); [lia|lia|exact W|split; reflexivity| | |].
  - assert (2 * 2 ^ 63 <= 2 ^ 100) by (apply Z.leb_le; reflexivity). assert (d * U <= 2 ^ 63 * U) by (apply Z.mul_le_mono_nonneg_r; lia).
    revert H H0 H1 PU. generalize (2 ^ 63), (2 ^ 100), U. clear. intros. nia.
  - destruct (Z.eq_dec d 0) as [->|N]; [left; lia|right]. pose proof U_big as B. assert (2 * (2 ^ 52 * CLOCKS_PER_SEC) <= 2 ^ 200) by (apply Z.leb_le; reflexivity).
    assert (1 * U <= d * U) by (apply Z.mul_le_mono_nonneg_r; lia). lia.
  - exists w. split; [exact Ew|]. rewrite Z.mul_1_l in Ww. exact Ww.
Qed.

Definition sec (d : Z) : Z := ddiv (of_whole d) (of_whole CLOCKS_PER_SEC).
Definition time_body {S} (ticks : nat -> Z) (exp : M (S * nat) unit) : M ((S * nat) * Z) unit :=
  do* clock_begin := on_fst (clock ticks) in
  on_fst exp ;;;
  do* clock_end := on_fst (clock ticks) in
  do* d := lift (csub clock_end clock_begin) in
  upd_snd (fun t => dadd t (ddiv (of_whole d) (of_whole CLOCKS_PER_SEC))).

Lemma csub_ok a b : 0 <= a - b < 2 ^ 63 -> csub a b = Ok (a - b).
Proof.
  intros H. unfold csub. cbv zeta. destruct (Z.leb_spec (- 2 ^ 63) (a - b)); [|lia].
  destruct (Z.ltb_spec (a - b) (2 ^ 63)); [reflexivity|lia].
Qed.

Lemma body_more {S} ticks (exp : M (S * nat) unit) s k s' k' t : exp (s, Datatypes.S k) = Ret (s', k') tt -> 0 <= ticks k' - ticks k < 2 ^ 63 ->
  time_body ticks exp ((s, k), t) = Ret ((s', Datatypes.S k'), dadd t (sec (ticks k' - ticks k))) tt.
Proof.
  intros E H. unfold time_body, bind, on_fst, clock, lift, upd_snd. rewrite E. cbn [fst snd]. rewrite (csub_ok _ _ H). reflexivity.
Qed.
Lemma body_throw {S} ticks (exp : M (S * nat) unit) s k st' e t : exp (s, Datatypes.S k) = Thr st' e ->
  time_body ticks exp ((s, k), t) = Thr (st', t) e.
Proof. intros E. unfold time_body, bind, on_fst, clock. rewrite E. reflexivity. Qed.

Lemma loop_passes {S} ticks (exp : M (S * nat) unit) n st ds st' : passes ticks exp n st ds st' -> Forall (fun d => 0 <= d < 2 ^ 63) ds ->
  forall (l : list Z) rest t, List.length l = n ->
  run (l ++ rest) (fun _ => time_body ticks exp) (st, t) = run rest (fun _ => time_body ticks exp) (st', fold_left (fun t d => dadd t (sec d)) ds t).
Proof.
  induction 1 as [st|n s k s' k' ds st E HP IH]; intros HF l rest t HL.
  - destruct l; [reflexivity|discriminate].
  - destruct l as [|i l]; [discriminate|]. inversion HF as [|d ds' Hd HF' E1]. subst. cbn [app run]. unfold bind at 1.
    rewrite (body_more ticks exp s k s' k' t E Hd). cbn [fold_left]. apply IH; [exact HF'|]. now injection HL.
Qed.
Lemma passes_length {S} ticks (exp : M (S * nat) unit) n st ds st' : passes ticks exp n st ds st' -> List.length ds = n.
Proof. induction 1; cbn; congruence. Qed.

Lemma within_from n k x p q : (n <= k)%nat -> 0 <= p -> 0 <= x * q -> within n x p q -> within k x p q.
Proof. induction 1; intros; [assumption|]. apply within_more; auto. Qed.

Lemma zsum_nonneg ds : Forall (fun d => 0 <= d < 2 ^ 63) ds -> 0 <= zsum ds <= Z.of_nat (List.length ds) * 2 ^ 63.
Proof.
  induction 1 as [|d ds Hd HF IH]; [split; reflexivity|]. rewrite zsum_cons. cbn [List.length]. lia.
Qed.

Lemma fold_within ds : Forall (fun d => 0 <= d < 2 ^ 63) ds -> forall n t a p, 0 <= t < 2 ^ 63 -> num64 t = Fin a -> 0 <= p -> within (2 + n) a p 1000000 ->
  p + zsum ds <= 2 ^ 98 -> Z.of_nat (2 + n + List.length ds) <= 2 ^ 52 ->
  exists c, num64 (fold_left (fun t d => dadd t (sec d)) ds t) = Fin c /\ 0 <= fold_left (fun t d => dadd t (sec d)) ds t < 2 ^ 63 /\ within (2 + (n + List.length ds)) c (p + zsum ds) 1000000.
Proof.
  induction 1 as [|d ds Hd HF IH]; intros n t a p Ht Et Hp W HB HN.
  - exists a. cbn [fold_left List.length]. change (zsum []) with 0. rewrite Nat.add_0_r, Z.add_0_r. auto.
  - cbn [fold_left List.length] in *. rewrite zsum_cons in *. pose proof (zsum_nonneg ds HF) as [S0 _]. pose proof U_pos as PU.
    destruct (second_within d Hd) as (b & Eb & Wb). fold (sec d) in Eb.
    pose proof (within_nonneg 2 b d 1000000 ltac:(lia) ltac:(lia) Wb) as B0. pose proof (within_nonneg (2 + n) a p 1000000 Hp ltac:(lia) W) as A0.
    pose proof (within_half (2 + n) a p 1000000 ltac:(lia) Hp W) as HA. pose proof (within_half 2 b d 1000000 ltac:(lia) ltac:(lia) Wb) as HD.
    destruct (add_within (2 + n) t (sec d) a b p d 1000000 Ht Et Eb Hp ltac:(lia) ltac:(lia) W) as (c & Ec & Rc & Wc).
    + apply (within_from 2); [lia|lia|lia|exact Wb].
    + assert ((p + d) * U <= 2 ^ 98 * U) by (apply Z.mul_le_mono_nonneg_r; lia). change (2 ^ 100) with (4 * 2 ^ 98). lia.
    + destruct (IH (S n) (dadd t (sec d)) c (p + d) Rc Ec ltac:(lia) Wc ltac:(lia) ltac:(lia)) as (e & Ee & Re & We).
      exists e. split; [exact Ee|]. split; [exact Re|]. replace (n + S (List.length ds))%nat with (S n + List.length ds)%nat by lia.
      replace (p + (d + zsum ds)) with (p + d + zsum ds) by ring. exact We.
Qed.

Lemma exec_time_eq {S} ticks N (exp : M (S * nat) unit) st : 0 <= N < UINT_MOD ->
  exec_time ticks N exp st =
  match run (zrange 0 N) (fun _ => time_body ticks exp) (st, 0) with
  | Ret (st', t) _ => Ret st' (ddiv t (of_whole N))
  | Thr (st', _) e => Thr st' e
  | Undef => Undef
  end.
Proof. intros HN. unfold exec_time. rewrite for_uint_run by lia. reflexivity. Qed.

Lemma exec_time_mean {S} ticks N (exp : M (S * nat) unit) st ds st' : 1 <= N < UINT_MOD ->
  passes ticks exp (Z.to_nat N) st ds st' -> Forall (fun d => 0 <= d < 2 ^ 63) ds ->
  exists t v, exec_time ticks N exp st = Ret st' t /\ num64 t = Fin v /\ within (Z.to_nat N + 3) v (zsum ds) (1000000 * N).
Proof.
  intros HN HP HF. rewrite exec_time_eq by lia. rewrite <- (app_nil_r (zrange 0 N)).
  rewrite (loop_passes ticks exp _ _ _ _ HP HF) by (rewrite length_zrange; f_equal; lia). cbn [run]. unfold ret.
  pose proof (passes_length _ _ _ _ _ _ HP) as L. pose proof (zsum_nonneg ds HF) as [S0 S1]. rewrite L in S1.
  assert (HU : UINT_MOD = 2 ^ 32) by reflexivity.
  assert (S2 : zsum ds <= 2 ^ 98).
  { apply (Z.le_trans _ _ _ S1). change (2 ^ 98) with (2 ^ 35 * 2 ^ 63). apply Z.mul_le_mono_nonneg_r; lia. }
  destruct (fold_within ds HF 0 0 0 0 ltac:(lia) eq_refl ltac:(lia) (within_zero _ _) ltac:(lia)) as (c & Ec & Rc & Wc); [rewrite L; lia|].
  rewrite L, !Z.add_0_l in *. cbn [Nat.add] in Wc.
  eexists. pose proof (within_half (2 + Z.to_nat N) c (zsum ds) 1000000 ltac:(lia) S0 Wc) as HC. pose proof U_pos as PU.
  destruct (div_within _ _ c (zsum ds) 1000000 N Rc Ec S0 ltac:(lia) Wc) as (w & Ew & _ & Ww); [lia| | |].
  - assert (zsum ds * U <= 2 ^ 98 * U) by (apply Z.mul_le_mono_nonneg_r; lia). change (2 ^ 100) with (4 * 2 ^ 98). lia.
  - destruct (Z.eq_dec (zsum ds) 0) as [E|E]; [left; rewrite E in HC; lia|right].
    assert (1 * U <= zsum ds * U) by (apply Z.mul_le_mono_nonneg_r; lia). pose proof U_big as B.
    assert (2 * (2 ^ 52 * 2 ^ 32 * 1000000) <= 2 ^ 200) by (apply Z.leb_le; reflexivity). lia.
  - exists w. split; [reflexivity|]. split; [exact Ew|]. replace (Z.to_nat N + 3)%nat with (3 + Z.to_nat N)%nat by lia. exact Ww.
Qed.

Lemma exec_time_throws {S} ticks N (exp : M (S * nat) unit) st n ds s k st' e : 0 <= N < UINT_MOD ->
  passes ticks exp n st ds (s, k) -> Forall (fun d => 0 <= d < 2 ^ 63) ds -> Z.of_nat n < N -> exp (s, Datatypes.S k) = Thr st' e ->
  exec_time ticks N exp st = Thr st' e.
Proof.
  intros HN HP HF Hn HE. rewrite exec_time_eq by lia.
  assert (L : (n < List.length (zrange 0 N))%nat) by (rewrite length_zrange; lia).
  destruct (nth_split (zrange 0 N) 0 L) as (l1 & l2 & E & L1). rewrite E.
  rewrite (loop_passes ticks exp _ _ _ _ HP HF) by exact L1. cbn [run]. unfold bind. rewrite (body_throw ticks exp s k st' e _ HE). reflexivity.
Qed.

(** ** Products *)
Lemma UU : 2 ^ 2148 = U * U.
Proof. unfold U. rewrite <- Z.pow_add_r by lia. reflexivity. Qed.

Lemma sign_bit x a : 0 <= x < 2 ^ 64 -> num64 x = Fin a -> if 2 ^ 63 <=? x then a <= 0 else 0 <= a.
Proof.
  intros Hx E. pose proof (L_ScanF.num64_sign x a E) as H. change (2 ^ 64) with (2 * 2 ^ 63) in Hx. assert (P : 0 < 2 ^ 63) by reflexivity.
  destruct (Z.leb_spec (2 ^ 63) x) as [L|L].
  - assert (D : x / 2 ^ 63 = 1) by (symmetry; apply (Z.div_unique x (2 ^ 63) 1 (x - 2 ^ 63)); lia). rewrite D in H. exact H.
  - rewrite Z.div_small in H by lia. exact H.
Qed.

Lemma signed_range (s : bool) r : 0 <= r < 2 ^ 63 -> 0 <= (if s then 2 ^ 63 else 0) + r < 2 ^ 64.
Proof. change (2 ^ 64) with (2 * 2 ^ 63). destruct s; lia. Qed.

(** The sign of a product that is not zero. *)
Lemma dsign_product x y a b w : 0 <= x < 2 ^ 64 -> 0 <= y < 2 ^ 64 -> num64 x = Fin a -> num64 y = Fin b -> a * b <> 0 ->
  (if xorb (2 ^ 63 <=? x) (2 ^ 63 <=? y) then - w else w) = Z.sgn (a * b) * w.
Proof.
  intros Hx Hy Ex Ey N. pose proof (sign_bit x a Hx Ex) as A. pose proof (sign_bit y b Hy Ey) as B. rewrite Z.sgn_mul.
  assert (a <> 0 /\ b <> 0) as [Na Nb] by (split; intros ->; lia).
  destruct (2 ^ 63 <=? x), (2 ^ 63 <=? y); cbn [xorb].
  - rewrite (Z.sgn_neg a), (Z.sgn_neg b) by lia. lia.
  - rewrite (Z.sgn_neg a), (Z.sgn_pos b) by lia. lia.
  - rewrite (Z.sgn_pos a), (Z.sgn_neg b) by lia. lia.
  - rewrite (Z.sgn_pos a), (Z.sgn_pos b) by lia. lia.
Qed.

Lemma dmul_zero x y a b : 0 <= x < 2 ^ 64 -> 0 <= y < 2 ^ 64 -> num64 x = Fin a -> num64 y = Fin b -> a * b = 0 ->
  num64 (dmul x y) = Fin 0 /\ 0 <= dmul x y < 2 ^ 64.
Proof.
  intros Hx Hy Ex Ey E. unfold dmul. rewrite Ex, Ey, <- Z.abs_mul, E. change (round_f64 (Z.abs 0) (2 ^ 2148)) with 0. unfold dsign.
  split; [|apply signed_range; lia]. destruct (xorb _ _); reflexivity.
Qed.

Lemma dmul_rel x y a b : 0 <= x < 2 ^ 64 -> 0 <= y < 2 ^ 64 -> num64 x = Fin a -> num64 y = Fin b ->
  2 ^ 52 * U <= Z.abs (a * b) -> Z.abs (a * b) <= DMAX * (U * U) ->
  exists c, num64 (dmul x y) = Fin c /\ 0 <= dmul x y < 2 ^ 64 /\ Z.sgn c = Z.sgn (a * b) /\
    (2 ^ 53 - 1) * Z.abs (a * b) <= 2 ^ 53 * (Z.abs c * U) <= (2 ^ 53 + 1) * Z.abs (a * b).
Proof.
  intros Hx Hy Ex Ey HL HM. unfold dmul. rewrite Ex, Ey, <- Z.abs_mul, UU. pose proof U_pos as PU.
  assert (N : 0 < Z.abs (a * b)). { assert (0 < 2 ^ 52) by reflexivity. revert HL H PU. generalize (2 ^ 52), (Z.abs (a * b)), U. clear. intros. nia. }
  destruct (round_rel (Z.abs (a * b)) (U * U) N ltac:(nia) HM) as (w & E & W0 & R & K).
  { rewrite Z.mul_assoc. apply Z.mul_le_mono_nonneg_r; lia. }
  exists (Z.sgn (a * b) * w). unfold dsign. split; [|split; [apply signed_range; exact R|]].
  - rewrite (num64_signed _ _ w R E), (dsign_product x y a b w Hx Hy Ex Ey); [reflexivity|lia].
  - assert (K' : (2 ^ 53 - 1) * Z.abs (a * b) <= 2 ^ 53 * (w * U) <= (2 ^ 53 + 1) * Z.abs (a * b)).
    { revert K PU. clear. generalize (2 ^ 53), U, (Z.abs (a * b)). intros B u m [K1 K2] P. split; nia. }
    assert (WP : 0 < w). { assert (1 < 2 ^ 53) by reflexivity. revert K' H N W0 PU. generalize (2 ^ 53), U, (Z.abs (a * b)). clear. intros. nia. }
    rewrite (Z.sgn_mul (Z.sgn (a * b)) w), (Z.sgn_pos w), Z.mul_1_r, (Z.abs_mul (Z.sgn (a * b)) w), (Z.abs_eq w) by lia.
    assert (S1 : Z.abs (Z.sgn (a * b)) = 1) by lia. rewrite S1, Z.mul_1_l.
    split; [lia|]. exact K'.
Qed.

Lemma dmul_comm x y a b : num64 x = Fin a -> num64 y = Fin b -> dmul x y = dmul y x.
Proof. intros Ex Ey. unfold dmul, dsign. rewrite Ex, Ey, xorb_comm, Z.mul_comm. reflexivity. Qed.

Lemma product_snoc l b : product (l ++ [b]) = product l * b.
Proof. unfold product. induction l as [|x l IH]; cbn [app fold_right]; [ring|]. rewrite IH. ring. Qed.
Lemma scale_snoc l b : scale (l ++ [b]) = scale l * U.
Proof. unfold scale, U. rewrite app_length. cbn [List.length]. rewrite Nat.add_1_r, Nat2Z.inj_succ, Z.pow_succ_r by lia. ring. Qed.
Lemma scale_pos l : 0 < scale l.
Proof. unfold scale. apply Z.pow_pos_nonneg; [reflexivity|lia]. Qed.

(** [x] is the computed product of the numbers [l], after [n] roundings. *)
Definition holds (n : nat) (l : list Z) (x : Z) : Prop :=
  0 <= x < 2 ^ 64 /\ exists c, num64 x = Fin c /\ Z.sgn c = Z.sgn (product l) /\ within n (Z.abs c) (Z.abs (product l)) (scale l).

Lemma consts_mul : 2 ^ 1023 <= DMAX /\ U = 2 ^ 1022 * 2 ^ 52.
Proof. split; [apply Z.leb_le; reflexivity|]. unfold U. rewrite <- Z.pow_add_r by lia. reflexivity. Qed.

Lemma mul_holds n l x y b : Z.of_nat n <= 2 ^ 52 -> holds n l x -> 0 <= y < 2 ^ 64 -> num64 y = Fin b ->
  product (l ++ [b]) = 0 \/ scale (l ++ [b]) <= 2 ^ 1021 * Z.abs (product (l ++ [b])) /\ Z.abs (product (l ++ [b])) <= 2 ^ 1022 * scale (l ++ [b]) ->
  holds (S n) (l ++ [b]) (dmul x y).
Proof.
  intros Hn (Hx & c & Ec & Sc & Wc) Hy Eb HT. rewrite product_snoc, scale_snoc in HT. unfold holds. rewrite product_snoc, scale_snoc.
  pose proof (scale_pos l) as Q. set (q := scale l) in *. set (P := product l) in *. clearbody q P. pose proof U_pos as PU.
  destruct (Z.eq_dec (P * b) 0) as [Z0|NZ].
  - assert (c * b = 0). { apply Z.mul_eq_0 in Z0. destruct Z0 as [->| ->]; [|apply Z.mul_0_r]. destruct c; [reflexivity|discriminate|discriminate]. }
    destruct (dmul_zero x y c b Hx Hy Ec Eb H) as [E R]. split; [exact R|]. exists 0. rewrite Z0. split; [exact E|]. split; [reflexivity|apply within_zero].
  - destruct HT as [HT|[T1 T2]]; [contradiction|].
    pose proof (within_half n (Z.abs c) (Z.abs P) q Hn ltac:(lia) Wc) as [H1 H2].
    destruct consts_mul as [C1 C2].
    assert (PB : Z.abs (P * b) = Z.abs P * Z.abs b) by apply Z.abs_mul. assert (CB : Z.abs (c * b) = Z.abs c * Z.abs b) by apply Z.abs_mul.
    assert (B0 : 0 <= Z.abs b) by lia. assert (G1 : Z.abs (P * b) * U <= 2 * (Z.abs (c * b) * q)).
    { rewrite PB, CB. clear - H1 B0. revert H1 B0. generalize (Z.abs P), (Z.abs c), (Z.abs b), U. intros. nia. }
    assert (G2 : 2 * (Z.abs (c * b) * q) <= 4 * (Z.abs (P * b) * U)).
    { rewrite PB, CB. clear - H2 B0. revert H2 B0. generalize (Z.abs P), (Z.abs c), (Z.abs b), U. intros. nia. }
    assert (E1 : 2 ^ 1022 = 2 * 2 ^ 1021) by (rewrite <- Z.pow_succ_r by lia; reflexivity).
    assert (E2 : 2 ^ 1023 = 2 * 2 ^ 1022) by (rewrite <- Z.pow_succ_r by lia; reflexivity).
    destruct (dmul_rel x y c b Hx Hy Ec Eb) as (d & Ed & Rd & Sd & Kd).
    + (* U <= |cb| 2^1022 *)
      assert (A : q * U * U <= 2 ^ 1021 * (2 * (Z.abs (c * b) * q))).
      { apply (Z.le_trans _ (2 ^ 1021 * Z.abs (P * b) * U)); [apply Z.mul_le_mono_nonneg_r; lia|]. rewrite <- Z.mul_assoc. apply Z.mul_le_mono_nonneg_l; [apply Z.pow_nonneg; lia|exact G1]. }
      assert (B : U * U <= 2 ^ 1022 * Z.abs (c * b)).
      { rewrite E1. revert A Q. clear. generalize (2 ^ 1021), (Z.abs (c * b)), (U). intros. nia. }
      rewrite C2 in B at 1. assert (0 < 2 ^ 1022) by (apply Z.pow_pos_nonneg; lia).
      rewrite <- Z.mul_assoc in B. apply (Z.mul_le_mono_pos_l _ _ (2 ^ 1022) H). exact B.
    + (* |cb| <= 2^1023 U U *)
      assert (A : Z.abs (c * b) * q <= 2 * (2 ^ 1022 * (q * U)) * U).
      { assert (Z.abs (P * b) * U <= 2 ^ 1022 * (q * U) * U) by (apply Z.mul_le_mono_nonneg_r; lia). lia. }
      apply (Z.le_trans _ (2 ^ 1023 * (U * U))).
      * rewrite E2. revert A Q. clear. generalize (2 ^ 1022), (Z.abs (c * b)), (U). intros. nia.
      * apply Z.mul_le_mono_nonneg_r; [nia|exact C1].
    + split; [exact Rd|]. exists d. split; [exact Ed|]. split; [rewrite Sd, !Z.sgn_mul, Sc; reflexivity|].
      rewrite PB.
      assert (W2 : within n (Z.abs (c * b)) (Z.abs P * Z.abs b) q).
      { rewrite CB. rewrite within_def in *. clear - Wc B0. revert Wc B0. generalize (down n), (one n), (up n), (Z.abs P), (Z.abs c), (Z.abs b), U. intros d' o' u' P' C' B' U' [A1 A2] HB. split; nia. }
      pose proof (within_round n (Z.abs (c * b)) (Z.abs d * U) (Z.abs P * Z.abs b) q (Z.mul_nonneg_nonneg _ _ (Z.abs_nonneg P) B0) (Z.lt_le_incl _ _ Q) Kd W2) as W3.
      rewrite within_def in *. replace (Z.abs d * (q * U)) with (Z.abs d * U * q) by ring. exact W3.
Qed.

(** The whole list, from a first number on. *)
Lemma firstn_prefix {A} (l r : list A) : firstn (List.length l) (l ++ r) = l.
Proof. rewrite firstn_app, firstn_all, Nat.sub_diag. cbn [firstn]. apply app_nil_r. Qed.

Lemma fold_holds vals vs : stand_for vals vs -> forall n l x rest, holds n l x -> tame (l ++ vs ++ rest) ->
  Z.of_nat (n + List.length vals) <= 2 ^ 52 -> holds (n + List.length vals) (l ++ vs) (fold_left dmul vals x).
Proof.
  induction 1 as [|y b vals vs [Hy Eb] HF IH]; intros n l x rest H HT HN; cbn [fold_left List.length].
  - rewrite Nat.add_0_r, app_nil_r. exact H.
  - replace (n + S (List.length vals))%nat with (S n + List.length vals)%nat by lia.
    replace (l ++ b :: vs) with ((l ++ [b]) ++ vs) by (rewrite <- app_assoc; reflexivity).
    assert (EL : l ++ (b :: vs) ++ rest = (l ++ [b]) ++ vs ++ rest) by (rewrite <- !app_assoc; reflexivity). rewrite EL in HT.
    cbn [List.length] in HN. apply (IH (S n) (l ++ [b]) (dmul x y) rest); [|exact HT|lia].
    apply (mul_holds n l x y b); [lia|exact H|exact Hy|exact Eb|].
    pose proof (HT (List.length (l ++ [b]))) as T. rewrite firstn_prefix in T. exact T.
Qed.

Lemma holds_one x a : 0 <= x < 2 ^ 64 -> num64 x = Fin a -> holds 0 [a] x.
Proof.
  intros Hx E. split; [exact Hx|]. exists a. split; [exact E|]. unfold product, scale. cbn [fold_right List.length]. rewrite Z.mul_1_r. split; [reflexivity|].
  rewrite within_def. change (down 0) with 1. change (one 0) with 1. change (up 0) with 1. change (Z.of_nat 1) with 1. rewrite Z.pow_1_r. fold U. lia.
Qed.

Lemma accumulate_pro l : forall acc, accumulate RF_PRO_f64 l acc = Ok (fold_left dmul l acc).
Proof. induction l as [|x l IH]; intros acc; cbn [accumulate fold_left]; [reflexivity|]. unfold RF_PRO_f64 at 1. cbn [rbind]. apply IH. Qed.
Lemma accumulate_pro_abs l : forall acc, accumulate RF_PRO_ABS_f64 l acc = Ok (fold_left dmul (map (fabs Double) l) acc).
Proof. induction l as [|x l IH]; intros acc; cbn [accumulate fold_left map]; [reflexivity|]. unfold RF_PRO_ABS_f64 at 1. cbn [rbind]. apply IH. Qed.

Lemma stand_length l vs : stand_for l vs -> List.length l = List.length vs.
Proof. unfold stand_for. induction 1; cbn; congruence. Qed.

Lemma pro_holds ans a vals vs : 0 <= ans < 2 ^ 64 -> num64 ans = Fin a -> stand_for vals vs -> Z.of_nat (List.length vals) < 2 ^ 52 ->
  tame (a :: vs ++ [a]) -> exists v, outcome RF_PRO_f64 vals ans = Ok v /\ holds (S (List.length vals)) (a :: vs ++ [a]) v.
Proof.
  intros Ha Ea HF HN HT. unfold outcome. rewrite accumulate_pro. cbn [rbind]. unfold RF_PRO_f64.
  pose proof (fold_holds vals vs HF 0 [a] ans [a] (holds_one ans a Ha Ea) HT ltac:(cbn [Nat.add]; lia)) as H. cbn [Nat.add] in H.
  exists (dmul ans (fold_left dmul vals ans)). split; [reflexivity|].
  pose proof H as (_ & c & Ec & _). rewrite (dmul_comm _ _ _ _ Ea Ec).
  change (a :: vs ++ [a]) with (([a] ++ vs) ++ [a]). apply (mul_holds _ _ _ _ a); [lia|exact H|exact Ha|exact Ea|].
  pose proof (HT (List.length (([a] ++ vs) ++ [a]))) as T. change (a :: vs ++ [a]) with (([a] ++ vs) ++ [a]) in T. rewrite firstn_all in T. exact T.
Qed.

(** Only the sizes matter to [tame]. *)
Lemma product_abs l : Z.abs (product l) = product (map Z.abs l).
Proof. unfold product. induction l as [|x l IH]; cbn [map fold_right]; [reflexivity|]. rewrite Z.abs_mul, IH. reflexivity. Qed.
Lemma tame_abs l l' : map Z.abs l = map Z.abs l' -> tame l -> tame l'.
Proof.
  intros E T k. specialize (T k).
  assert (P : Z.abs (product (firstn k l)) = Z.abs (product (firstn k l'))) by (rewrite !product_abs, <- !firstn_map, E; reflexivity).
  assert (Q : scale (firstn k l) = scale (firstn k l')).
  { unfold scale. do 2 f_equal. rewrite <- (map_length Z.abs (firstn k l)), <- (map_length Z.abs (firstn k l')), <- !firstn_map, E. reflexivity. }
  rewrite <- P, <- Q. destruct T as [T|T]; [left; lia|right; exact T].
Qed.

Lemma holds_abs n l x : holds n l x -> 0 <= fabs Double x < 2 ^ 64 /\ exists c, num64 (fabs Double x) = Fin (Z.abs c) /\ num64 x = Fin c /\
  Z.sgn c = Z.sgn (product l) /\ within n (Z.abs c) (Z.abs (product l)) (scale l).
Proof.
  intros (Hx & c & Ec & S & W).
  assert (F : stand_for [x] [c]) by (constructor; [split; assumption|constructor]). apply stand_abs in F. inversion F as [|? ? ? ? [R E]]. subst.
  split; [exact R|]. exists c. auto.
Qed.

Lemma pro_abs_holds ans a vals vs : 0 <= ans < 2 ^ 64 -> num64 ans = Fin a -> stand_for vals vs -> Z.of_nat (List.length vals) < 2 ^ 52 ->
  tame (a :: vs ++ [a]) -> exists v, outcome RF_PRO_ABS_f64 vals ans = Ok v /\ holds (S (List.length vals)) (map Z.abs (a :: vs) ++ [a]) v.
Proof.
  intros Ha Ea HF HN HT. unfold outcome. rewrite accumulate_pro_abs. cbn [rbind]. unfold RF_PRO_ABS_f64.
  assert (HT' : tame ([a] ++ map Z.abs vs ++ [a])).
  { apply (tame_abs (a :: vs ++ [a])); [|exact HT]. cbn [app map]. rewrite !map_app, map_abs_abs. reflexivity. }
  pose proof (fold_holds _ _ (stand_abs _ _ HF) 0 [a] ans [a] (holds_one ans a Ha Ea) HT' ltac:(cbn [Nat.add]; rewrite map_length; lia)) as H. cbn [Nat.add] in H.
  rewrite map_length in H.
  set (t := fold_left dmul (map (fabs Double) vals) ans) in *. clearbody t.
  exists (dmul ans (fabs Double t)). split; [reflexivity|].
  destruct (holds_abs _ _ _ H) as (R & c & E & Ec & S & W).
  rewrite (dmul_comm _ _ _ _ Ea E). apply (mul_holds _ _ _ _ a); [lia| |exact Ha|exact Ea|].
  - split; [exact R|]. exists (Z.abs c). split; [exact E|].
    assert (P : Z.abs (product ([a] ++ map Z.abs vs)) = product (map Z.abs (a :: vs))).
    { rewrite product_abs, map_app, map_abs_abs. reflexivity. }
    assert (Q : scale ([a] ++ map Z.abs vs) = scale (map Z.abs (a :: vs))) by (unfold scale; rewrite app_length, !map_length; reflexivity).
    rewrite P, Q in W. rewrite Z.abs_involutive. assert (P0 : 0 <= product (map Z.abs (a :: vs))) by (rewrite <- P; lia).
    rewrite (Z.abs_eq (product (map Z.abs (a :: vs)))) by exact P0. split; [|exact W].
    rewrite <- P. assert (c = 0 <-> product ([a] ++ map Z.abs vs) = 0) by (rewrite <- (Z.sgn_null_iff c), <- (Z.sgn_null_iff (product _)), S; reflexivity).
    lia.
  - assert (T : tame (map Z.abs (a :: vs) ++ [a])).
    { apply (tame_abs (a :: vs ++ [a])); [|exact HT]. change (a :: vs ++ [a]) with ((a :: vs) ++ [a]). rewrite !map_app, map_abs_abs. reflexivity. }
    specialize (T (List.length (map Z.abs (a :: vs) ++ [a]))). rewrite firstn_all in T. exact T.
Qed.

(** *** Nearest *)
Lemma dmul_nearest x y a b : 0 <= x < 2 ^ 64 -> 0 <= y < 2 ^ 64 -> num64 x = Fin a -> num64 y = Fin b -> Z.abs (a * b) <= double_max * U ->
  exists c, num64 (dmul x y) = Fin c /\ forall z v, num64 z = Fin v -> Z.abs (c * U - a * b) <= Z.abs (v * U - a * b).
Proof.
  intros Hx Hy Ex Ey H. pose proof U_pos as PU. destruct (Z.eq_dec (a * b) 0) as [E|N].
  - destruct (dmul_zero x y a b Hx Hy Ex Ey E) as [R _]. exists 0. split; [exact R|]. intros z v _. rewrite E. lia.
  - unfold dmul. rewrite Ex, Ey, <- Z.abs_mul, UU. rewrite <- dmax_eq, <- Z.mul_assoc in H.
    destruct (round_f64_nearest (Z.abs (a * b)) (U * U)) as (w & E & _ & R & G); [lia|nia|exact H|].
    exists (Z.sgn (a * b) * w). unfold dsign. split; [rewrite (num64_signed _ _ w R E), (dsign_product x y a b w Hx Hy Ex Ey N); reflexivity|].
    assert (G' : forall z v, num64 z = Fin v -> Z.abs (w * U - Z.abs (a * b)) <= Z.abs (v * U - Z.abs (a * b))).
    { intros z v Hv. specialize (G z v Hv). replace (w * (U * U) - Z.abs (a * b) * U) with ((w * U - Z.abs (a * b)) * U) in G by ring.
      replace (v * (U * U) - Z.abs (a * b) * U) with ((v * U - Z.abs (a * b)) * U) in G by ring.
      rewrite (Z.abs_mul _ U), (Z.abs_mul (v * U - _) U), (Z.abs_eq U) in G by lia. exact (Zmult_lt_0_le_reg_r _ _ U PU G). }
    intros z v Hv. destruct (Z_lt_le_dec 0 (a * b)) as [L|L].
    + specialize (G' z v Hv). rewrite (Z.abs_eq (a * b)) in G' by lia. rewrite Z.sgn_pos, Z.mul_1_l by exact L. exact G'.
    + destruct (finite_neg z v Hv) as (z' & Hz). specialize (G' z' (- v) Hz). rewrite (Z.abs_neq (a * b)) in G' by lia. rewrite Z.sgn_neg by lia.
      replace (-1 * w * U - a * b) with (- (w * U - - (a * b))) by ring. replace (v * U - a * b) with (- (- v * U - - (a * b))) by ring. rewrite !Z.abs_opp. exact G'.
Qed.

(** *** NaN *)
Lemma dmul_nan x y : num64 x = NaN \/ num64 y = NaN -> dmul x y = QNAN.
Proof. unfold dmul. intros [->| ->]; [reflexivity|]. destruct (num64 x); reflexivity. Qed.
Lemma mul_nan l : fold_left dmul l QNAN = QNAN.
Proof. induction l as [|x l IH]; cbn [fold_left]; [reflexivity|]. rewrite dmul_nan; [exact IH|]. left. reflexivity. Qed.
Lemma mul_nan_in l : forall acc, Exists (fun x => num64 x = NaN) l -> fold_left dmul l acc = QNAN.
Proof.
  induction l as [|x l IH]; intros acc H; inversion H; subst; cbn [fold_left]; [|auto].
  rewrite dmul_nan; [apply mul_nan|]. right. assumption.
Qed.
Lemma pro_nan vals ans : num64 ans = NaN \/ Exists (fun x => num64 x = NaN) vals -> outcome RF_PRO_f64 vals ans = Ok QNAN.
Proof.
  intros H. unfold outcome. rewrite accumulate_pro. cbn [rbind]. unfold RF_PRO_f64. f_equal.
  apply dmul_nan. destruct H as [H|H]; [left; exact H|right; rewrite mul_nan_in by exact H; reflexivity].
Qed.
Lemma pro_abs_nan vals ans : Forall (fpattern Double) vals -> num64 ans = NaN \/ Exists (fun x => num64 x = NaN) vals ->
  outcome RF_PRO_ABS_f64 vals ans = Ok QNAN.
Proof.
  intros HF H. unfold outcome. rewrite accumulate_pro_abs. cbn [rbind]. unfold RF_PRO_ABS_f64. f_equal. apply dmul_nan.
  destruct H as [H|H]; [left; exact H|right].
  rewrite mul_nan_in; [reflexivity|]. apply Exists_exists in H. destruct H as (x & I & E). apply Exists_exists.
  exists (fabs Double x). split; [apply in_map; exact I|]. rewrite Forall_forall in HF. apply fabs_nan; [apply (HF x I)|exact E].
Qed.

(** *** Products that can be given without a division *)
Lemma dmul_exact x y z a b c : 0 <= x < 2 ^ 63 -> 0 <= y < 2 ^ 63 -> 0 <= z < 2 ^ 63 -> num64 x = Fin a -> num64 y = Fin b -> num64 z = Fin c ->
  0 <= a * b -> a * b = c * U -> dmul x y = z.
Proof.
  intros Hx Hy Hz Ea Eb Ec H0 E. unfold dmul. rewrite Ea, Eb, (dsign_plus x y Hx Hy), Z.add_0_l, <- Z.abs_mul, Z.abs_eq, UU by exact H0.
  pose proof U_pos as PU. apply (round_f64_value z c (a * b) (U * U) Hz Ec); [nia|]. rewrite E. ring.
Qed.
Lemma dmul_tiny x y a b : 0 <= x < 2 ^ 63 -> 0 <= y < 2 ^ 63 -> num64 x = Fin a -> num64 y = Fin b -> 0 < a * b -> 2 * (a * b) < U -> dmul x y = 0.
Proof.
  intros Hx Hy Ea Eb H0 H. unfold dmul. rewrite Ea, Eb, (dsign_plus x y Hx Hy), Z.add_0_l, <- Z.abs_mul, Z.abs_eq, UU by lia.
  pose proof U_pos as PU. destruct (round_f64_small (a * b) (U * U) H0) as [E _]; [nia| |].
  - rewrite Z.mul_assoc. apply Z.mul_lt_mono_pos_r; [exact PU|]. assert (G : 1 < 2 ^ 53) by reflexivity. revert G H PU H0. generalize (2 ^ 53), U, (a * b). clear. intros. nia.
  - rewrite E. apply L_Print.round_div_at; [nia|nia|]. replace (a * b * U - 0 * (U * U)) with (a * b * U) by ring. rewrite Z.abs_eq by nia. nia.
Qed.
