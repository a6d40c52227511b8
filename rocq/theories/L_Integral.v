(** Lemmas for P_Integral.v *)

From Coq Require Import ZArith Ascii String List Bool Lia.
From Verif Require Import Base M_Bytes M_Scan M_Flags M_Loop M_Reduce M_FSum M_FMul M_Print Spec_Tec Spec Spec_Loop Spec_FSum Spec_FMul.
From Verif Require Import L_Base L_Loop L_Text L_TecMin L_ScanF L_Near L_Print L_Nearest L_Reduce L_FSum L_FMul.
From Verif Require Import M_Heap M_World M_Client M_Integral Spec_Client.
Import ListNotations.
Open Scope list_scope.
Open Scope Z_scope.

Lemma of_whole_zero : of_whole 0 = 0.
Proof. reflexivity. Qed.

Lemma mesh_within N : 2 <= N < 2 ^ 31 -> exists w, num64 (mesh N) = Fin w /\ 0 <= mesh N < 2 ^ 63 /\ within 1 w 1 (N - 1).
Proof.
  intros HN. unfold mesh. rewrite uwrap_small by (unfold in_uint; change UINT_MOD with (2 ^ 32); lia).
  assert (EX : num64 (dsub x1 x0) = Fin U /\ 0 <= dsub x1 x0 < 2 ^ 63).
  { destruct (of_whole_exact 1 ltac:(lia)) as [E1 R1]. rewrite Z.mul_1_l in E1.
    assert (E0 : num64 (fneg Double x0) = Fin 0) by reflexivity. fold x1 in E1, R1.
    destruct (dadd_exact x1 (fneg Double x0) U 0 1074 1 E1 E0) as [E _]; [lia|reflexivity|rewrite Z.mul_1_l, Z.add_0_r; reflexivity|].
    rewrite Z.add_0_r in E. split; [exact E|]. apply (dadd_plus x1 (fneg Double x0) U 0 R1 E1 E0); pose proof U_pos as PU; [lia|].
    rewrite Z.add_0_r. pose proof dmax_U as D. assert (G : 1 <= 2 ^ 100) by (apply Z.leb_le; reflexivity). revert D G PU. generalize (2 ^ 100), U, double_max. clear. intros. nia. }
  destruct EX as [EX RX]. pose proof U_pos as PU. pose proof U_big as BU.
  assert (W0 : within 0 U 1 1). { rewrite within_def. change (down 0) with 1. change (one 0) with 1. change (up 0) with 1. lia. }
  destruct (div_within 0 _ U 1 1 (N - 1) RX EX ltac:(lia) ltac:(lia) W0) as (w & Ew & Rw & Ww); [lia| | |].
  - assert (G : 1 <= 2 ^ 100) by (apply Z.leb_le; reflexivity). revert G PU. generalize (2 ^ 100), U. clear. intros. nia.
  - right. apply (Z.le_trans _ (2 ^ 52 * 2 ^ 31)); [lia|]. apply (Z.le_trans _ (2 ^ 200)); [apply Z.leb_le; reflexivity|exact BU].
  - exists w. rewrite Z.mul_1_l in Ww. auto.
Qed.

Lemma abscissa_within N i : 2 <= N < 2 ^ 31 -> 0 <= i < N -> exists v, num64 (abscissa N i) = Fin v /\ within 2 v i (N - 1).
Proof.
  intros HN Hi. unfold abscissa. destruct (mesh_within N HN) as (w & Ew & Rw & Ww). pose proof U_pos as PU. pose proof U_big as BU.
  assert (R64 : forall x, 0 <= x < 2 ^ 63 -> 0 <= x < 2 ^ 64) by (intros; change (2 ^ 64) with (2 * 2 ^ 63); lia).
  destruct (Z.eq_dec i 0) as [->|Ni].
  - exists 0. split; [|apply within_zero].
    destruct (dmul_zero (of_whole 0) (mesh N) 0 w (R64 0 ltac:(lia)) (R64 _ Rw) eq_refl Ew eq_refl) as [E _]. exact E.
  - destruct (of_whole_exact i) as [Ei Ri]; [lia|].
    pose proof (within_nonneg 1 w 1 (N - 1) ltac:(lia) ltac:(lia) Ww) as W0.
    pose proof (within_half 1 w 1 (N - 1) ltac:(lia) ltac:(lia) Ww) as [H1 H2]. rewrite Z.mul_1_l in H1, H2.
    assert (LW : 2 ^ 52 <= w).
    { assert (G : 2 * (2 ^ 52 * 2 ^ 31) <= 2 ^ 200) by (apply Z.leb_le; reflexivity). assert (w * (N - 1) <= w * 2 ^ 31) by (apply Z.mul_le_mono_nonneg_l; lia). lia. }
    assert (HW : w <= 2 * U) by nia.
    destruct (dmul_rel (of_whole i) (mesh N) (i * U) w (R64 _ Ri) (R64 _ Rw) Ei Ew) as (c & Ec & Rc & Sc & Kc).
    + rewrite Z.abs_eq by nia. replace (i * U * w) with (i * w * U) by ring. apply Z.mul_le_mono_nonneg_r; [lia|]. nia.
    + rewrite Z.abs_eq by nia. apply (Z.le_trans _ (2 ^ 31 * 2 * (U * U))).
      * replace (2 ^ 31 * 2 * (U * U)) with (2 ^ 31 * U * (2 * U)) by ring. apply Z.mul_le_mono_nonneg; [nia| |lia|exact HW]. apply Z.mul_le_mono_nonneg_r; lia.
      * apply Z.mul_le_mono_nonneg_r; [nia|]. pose proof DMAX_big. apply (Z.le_trans _ (2 ^ 100)); [apply Z.leb_le; reflexivity|assumption].
    + exists c. split; [exact Ec|].
      assert (C0 : 0 < c). { apply Z.sgn_pos_iff. rewrite Sc. apply Z.sgn_pos. nia. }
      rewrite (Z.abs_eq (i * U * w)), (Z.abs_eq c) in Kc by nia.
      apply (within_round 1 (i * w)); [lia|lia| |].
      * revert Kc PU. generalize (2 ^ 53), U. clear. intros B u [K1 K2] P. split; nia.
      * rewrite within_def in *. revert Ww. generalize (down 1), (one 1), (up 1), U. clear - Hi. intros d o u V [A1 A2]. split; nia.
Qed.

(** The sum, from a number already within. *)
Lemma terms_within q ys ds : 0 < q -> Forall2 (fun y d => 0 <= d /\ exists b, num64 y = Fin b /\ within 2 b d q) ys ds ->
  forall n t a p, 0 <= t < 2 ^ 63 -> num64 t = Fin a -> 0 <= p -> within (2 + n) a p q ->
  p + zsum ds <= 2 ^ 98 -> Z.of_nat (2 + n + List.length ys) <= 2 ^ 52 ->
  exists c, num64 (fold_left (fun acc v => dadd acc v) ys t) = Fin c /\ 0 <= fold_left (fun acc v => dadd acc v) ys t < 2 ^ 63 /\
    within (2 + (n + List.length ys)) c (p + zsum ds) q.
Proof.
  intros Hq. induction 1 as [|y d ys ds (Hd & b & Eb & Wb) HF IH]; intros n t a p Ht Et Hp W HB HN.
  - exists a. cbn [fold_left List.length]. change (zsum []) with 0. rewrite Nat.add_0_r, Z.add_0_r. auto.
  - cbn [fold_left List.length] in *. rewrite zsum_cons in *. pose proof U_pos as PU.
    assert (S0 : 0 <= zsum ds). { clear - HF. induction HF as [|y d ys ds [Hd _] HF IH]; [reflexivity|]. rewrite zsum_cons. lia. }
    pose proof (within_nonneg 2 b d q ltac:(lia) ltac:(lia) Wb) as B0. pose proof (within_nonneg (2 + n) a p q Hp ltac:(lia) W) as A0.
    pose proof (within_half (2 + n) a p q ltac:(lia) Hp W) as HA. pose proof (within_half 2 b d q ltac:(lia) ltac:(lia) Wb) as HD.
    destruct (add_within (2 + n) t y a b p d q Ht Et Eb Hp ltac:(lia) ltac:(lia) W) as (c & Ec & Rc & Wc).
    + apply (within_from 2); [lia|lia|nia|exact Wb].
    + assert (G : (p + d) * U <= 2 ^ 98 * U) by (apply Z.mul_le_mono_nonneg_r; lia). change (2 ^ 100) with (4 * 2 ^ 98).
      assert (a <= a * q) by nia. assert (b <= b * q) by nia. lia.
    + destruct (IH (S n) (dadd t y) c (p + d) Rc Ec ltac:(lia) Wc ltac:(lia) ltac:(lia)) as (e & Ee & Re & We).
      exists e. split; [exact Ee|]. split; [exact Re|]. replace (n + S (List.length ys))%nat with (S n + List.length ys)%nat by lia.
      replace (p + (d + zsum ds)) with (p + d + zsum ds) by ring. exact We.
Qed.

Lemma zsum_range n : 2 * zsum (zrange 0 (Z.of_nat n)) = Z.of_nat n * (Z.of_nat n - 1).
Proof.
  unfold zrange. rewrite Z.sub_0_r, Nat2Z.id. induction n as [|n IH]; [reflexivity|].
  rewrite seq_S, map_app. cbn [map]. assert (A : forall l x, zsum (l ++ [x]) = zsum l + x).
  { intros l x. induction l as [|y l IHl]; cbn [app]; [rewrite zsum_cons; change (zsum []) with 0; lia|]. rewrite !zsum_cons. lia. }
  rewrite A, Z.mul_add_distr_l, IH. lia.
Qed.

Lemma integral_value N : 2 <= N < 2 ^ 31 ->
  exists c, num64 (mean N (total (fun x xx => dadd xx x) 0 (map (abscissa N) (zrange 0 N)))) = Fin c /\
    0 <= mean N (total (fun x xx => dadd xx x) 0 (map (abscissa N) (zrange 0 N))) < 2 ^ 63 /\
    within (Z.to_nat N + 4) c N (2 * (N - 1)).
Proof.
  intros HN. unfold mean. rewrite uwrap_small by (unfold in_uint; change UINT_MOD with (2 ^ 32); lia). unfold total.
  assert (HF : Forall2 (fun y d => 0 <= d /\ exists b, num64 y = Fin b /\ within 2 b d (N - 1)) (map (abscissa N) (zrange 0 N)) (zrange 0 N)).
  { assert (A : forall l, (forall i, In i l -> 0 <= i < N) -> Forall2 (fun y d => 0 <= d /\ exists b, num64 y = Fin b /\ within 2 b d (N - 1)) (map (abscissa N) l) l).
    { induction l as [|i l IH]; intros H; cbn [map]; constructor; [|apply IH; intros; apply H; now right].
      pose proof (H i (or_introl eq_refl)) as Hi. split; [lia|]. apply (abscissa_within N i HN Hi). }
    apply A. intros i Hi. apply in_zrange in Hi. lia. }
  pose proof (zsum_range (Z.to_nat N)) as ZS. rewrite Z2Nat.id in ZS by lia.
  assert (SB : zsum (zrange 0 N) <= 2 ^ 90) by (assert (N * (N - 1) <= 2 ^ 31 * 2 ^ 31) by nia; change (2 ^ 90) with (2 ^ 31 * 2 ^ 31 * 2 ^ 28); lia).
  assert (S0 : 0 < zsum (zrange 0 N)) by nia.
  assert (LL : List.length (map (abscissa N) (zrange 0 N)) = Z.to_nat N) by (rewrite map_length, length_zrange; f_equal; lia).
  destruct (terms_within (N - 1) _ _ ltac:(lia) HF 0 0 0 0 ltac:(lia) eq_refl ltac:(lia) (within_zero _ _)) as (c & Ec & Rc & Wc); [lia|rewrite LL; lia|].
  rewrite LL, Z.add_0_l in Wc. cbn [Nat.add] in Wc.
  set (t := fold_left (fun acc v => dadd acc v) (map (abscissa N) (zrange 0 N)) 0) in *. clearbody t. set (s := zsum (zrange 0 N)) in *. clearbody s.
  (* zero once more *)
  assert (E0 : num64 0 = Fin 0) by reflexivity.
  pose proof (within_half (2 + Z.to_nat N) c s (N - 1) ltac:(lia) ltac:(lia) Wc) as HC. pose proof U_pos as PU.
  pose proof (within_nonneg (2 + Z.to_nat N) c s (N - 1) ltac:(lia) ltac:(lia) Wc) as C0.
  assert (CU : c <= 2 ^ 98 * U).
  { assert (s * U <= 2 ^ 90 * U) by (apply Z.mul_le_mono_nonneg_r; lia). assert (c <= c * (N - 1)) by nia. change (2 ^ 98) with (256 * 2 ^ 90). lia. }
  destruct (add_within (2 + Z.to_nat N) 0 t 0 c 0 s (N - 1) ltac:(lia) E0 Ec ltac:(lia) ltac:(lia) ltac:(lia) (within_zero _ _) Wc) as (d & Ed & Rd & Wd).
  { change (2 ^ 100) with (4 * 2 ^ 98). lia. }
  rewrite Z.add_0_l in Wd.
  pose proof (within_half (3 + Z.to_nat N) d s (N - 1) ltac:(lia) ltac:(lia) Wd) as HD.
  pose proof (within_nonneg (3 + Z.to_nat N) d s (N - 1) ltac:(lia) ltac:(lia) Wd) as D0.
  destruct (div_within (3 + Z.to_nat N) (dadd 0 t) d s (N - 1) (N - 1) Rd Ed ltac:(lia) ltac:(lia) Wd) as (e & Ee & Re & We); [lia| | |].
  - assert (s * U <= 2 ^ 90 * U) by (apply Z.mul_le_mono_nonneg_r; lia). assert (d <= d * (N - 1)) by nia. change (2 ^ 100) with (1024 * 2 ^ 90). lia.
  - right. assert (1 * U <= s * U) by (apply Z.mul_le_mono_nonneg_r; lia). pose proof U_big as BU.
    assert (G : 2 * (2 ^ 52 * 2 ^ 31 * 2 ^ 31) <= 2 ^ 200) by (apply Z.leb_le; reflexivity). nia.
  - exists e. split; [exact Ee|]. split; [exact Re|]. replace (Z.to_nat N + 4)%nat with (S (3 + Z.to_nat N)) by lia.
    rewrite within_def in *. assert (SN : N * U * (N - 1) = 2 * (s * U)) by (replace (2 * (s * U)) with (2 * s * U) by ring; rewrite ZS; ring).
    pose proof (down_pos (S (3 + Z.to_nat N))). revert We SN. generalize (down (S (3 + Z.to_nat N))), (one (S (3 + Z.to_nat N))), (up (S (3 + Z.to_nat N))), U. clear - HN.
    intros D O V u [A1 A2] SN. split; apply (Z.mul_le_mono_pos_r _ _ (N - 1)); try lia.
    + replace (D * (N * u) * (N - 1)) with (D * (N * u * (N - 1))) by ring. rewrite SN. replace (O * (e * (2 * (N - 1))) * (N - 1)) with (2 * (O * (e * ((N - 1) * (N - 1))))) by ring. lia.
    + replace (V * (N * u) * (N - 1)) with (V * (N * u * (N - 1))) by ring. rewrite SN. replace (O * (e * (2 * (N - 1))) * (N - 1)) with (2 * (O * (e * ((N - 1) * (N - 1))))) by ring. lia.
Qed.

(** ** The bounds of the result *)

(** Above one half, as long as the rounding errors stay below 1 / (2 (N - 1)). *)
Lemma above_half N c : 2 <= N <= 2 ^ 26 -> within (Z.to_nat N + 4) c N (2 * (N - 1)) -> U < 2 * c.
Proof.
  intros HN. rewrite within_def. intros [H _]. set (n := (Z.to_nat N + 4)%nat) in *. pose proof (down_le n) as D. pose proof (one_pos n) as O. pose proof U_pos as PU.
  assert (En : Z.of_nat n = N + 4) by lia. rewrite En in D. clearbody n. destruct (Z_lt_le_dec U (2 * c)) as [|G]; [assumption|exfalso].
  assert (X : (2 ^ 53 - (N + 4)) * N * U <= 2 ^ 53 * (U * (N - 1))).
  { apply (Z.mul_le_mono_pos_l _ _ (one n) O).
    apply (Z.le_trans _ (2 ^ 53 * (down n * (N * U)))).
    - replace (one n * ((2 ^ 53 - (N + 4)) * N * U)) with (one n * (2 ^ 53 - (N + 4)) * (N * U)) by ring.
      replace (2 ^ 53 * (down n * (N * U))) with (2 ^ 53 * down n * (N * U)) by ring. apply Z.mul_le_mono_nonneg_r; [nia|exact D].
    - replace (one n * (2 ^ 53 * (U * (N - 1)))) with (2 ^ 53 * (one n * (U * (N - 1)))) by ring. apply Z.mul_le_mono_nonneg_l; [lia|].
      apply (Z.le_trans _ _ _ H). apply Z.mul_le_mono_nonneg_l; [lia|]. nia. }
  assert (Y : (2 ^ 53 - (N + 4)) * N <= 2 ^ 53 * (N - 1)) by (clear - X PU; revert X PU; generalize (2 ^ 53), U; intros; nia).
  assert ((N + 4) * N <= (2 ^ 26 + 4) * 2 ^ 26) by nia. lia.
Qed.

Lemma near_half N c : 2000001 <= N < 2 ^ 31 -> within (Z.to_nat N + 4) c N (2 * (N - 1)) ->
  2 * Z.abs (c * 10 ^ 6 - 500000 * U) < U.
Proof.
  intros HN. rewrite within_def. intros [H1 H2]. set (n := (Z.to_nat N + 4)%nat) in *.
  pose proof (down_le n) as D. pose proof (up_le n) as V. pose proof (one_pos n) as O. pose proof U_pos as PU.
  assert (En : Z.of_nat n = N + 4) by lia. rewrite En in D, V. clearbody n. set (B := 2 ^ 53) in *. assert (EB : B = 9007199254740992) by reflexivity. clearbody B.
  assert (L : (B - (N + 4)) * (N * U) <= B * (c * (2 * (N - 1)))).
  { apply (Z.mul_le_mono_pos_l _ _ (one n) O). apply (Z.le_trans _ (B * (down n * (N * U)))).
    - replace (one n * ((B - (N + 4)) * (N * U))) with (one n * (B - (N + 4)) * (N * U)) by ring.
      replace (B * (down n * (N * U))) with (B * down n * (N * U)) by ring. apply Z.mul_le_mono_nonneg_r; [nia|exact D].
    - replace (one n * (B * (c * (2 * (N - 1))))) with (B * (one n * (c * (2 * (N - 1))))) by ring. apply Z.mul_le_mono_nonneg_l; lia. }
  assert (R : (B - (N + 4)) * (c * (2 * (N - 1))) <= B * (N * U)).
  { apply (Z.mul_le_mono_pos_l _ _ (one n) O). apply (Z.le_trans _ ((B - (N + 4)) * (up n * (N * U)))).
    - replace (one n * ((B - (N + 4)) * (c * (2 * (N - 1))))) with ((B - (N + 4)) * (one n * (c * (2 * (N - 1))))) by ring. apply Z.mul_le_mono_nonneg_l; lia.
    - replace ((B - (N + 4)) * (up n * (N * U))) with (up n * (B - (N + 4)) * (N * U)) by ring.
      replace (one n * (B * (N * U))) with (B * one n * (N * U)) by ring. apply Z.mul_le_mono_nonneg_r; [nia|exact V]. }
  clear D V O H1 H2. change (10 ^ 6) with 1000000.
  assert (A1 : 999999 * U < 2000000 * c).
  { destruct (Z_lt_le_dec (999999 * U) (2000000 * c)) as [|G]; [assumption|exfalso].
    (* (B - N - 4) N U <= B c 2 (N - 1) <= B (N - 1) 999999/10^6 U *)
    assert (X : 1000000 * ((B - (N + 4)) * N) * U <= B * (N - 1) * 999999 * U).
    { replace (1000000 * ((B - (N + 4)) * N) * U) with (1000000 * ((B - (N + 4)) * (N * U))) by ring.
      apply (Z.le_trans _ (B * (N - 1) * (2000000 * c))); [|replace (B * (N - 1) * 999999 * U) with (B * (N - 1) * (999999 * U)) by ring; apply Z.mul_le_mono_nonneg_l; nia].
      replace (B * (N - 1) * (2000000 * c)) with (1000000 * (B * (c * (2 * (N - 1))))) by ring. lia. }
    apply (Z.mul_le_mono_pos_r _ _ U PU) in X. nia. }
  assert (A2 : 2000000 * c < 1000001 * U).
  { destruct (Z_lt_le_dec (2000000 * c) (1000001 * U)) as [|G]; [assumption|exfalso].
    assert (X : (B - (N + 4)) * (N - 1) * 1000001 * U <= 1000000 * (B * N) * U).
    { replace (1000000 * (B * N) * U) with (1000000 * (B * (N * U))) by ring.
      apply (Z.le_trans _ ((B - (N + 4)) * (N - 1) * (2000000 * c))); [replace ((B - (N + 4)) * (N - 1) * 1000001 * U) with ((B - (N + 4)) * (N - 1) * (1000001 * U)) by ring; apply Z.mul_le_mono_nonneg_l; nia|].
      replace ((B - (N + 4)) * (N - 1) * (2000000 * c)) with (1000000 * ((B - (N + 4)) * (c * (2 * (N - 1))))) by ring. lia. }
    apply (Z.mul_le_mono_pos_r _ _ U PU) in X. nia. }
  lia.
Qed.

(** What is printed. *)
Lemma half_text v c : 0 <= v < 2 ^ 63 -> num64 v = Fin c -> 2 * Z.abs (c * 10 ^ 6 - 500000 * U) < U -> fmt_g v = "0.5"%string.
Proof.
  intros Hv Ec H. change (10 ^ 6) with 1000000 in H. pose proof U_pos as PU.
  assert (C : 999999 * U < 2000000 * c < 1000001 * U) by lia.
  assert (G : gen_pair c = (500000, -1)).
  { unfold gen_pair. destruct (Z.eqb_spec c 0); [lia|]. cbv zeta. fold U.
    assert (CB : 0 < c < 2 ^ 2098).
    { split; [lia|]. apply (Z.lt_trans _ U); [lia|]. unfold U. apply Z.pow_lt_mono_r; lia. }
    destruct (exponent_ok c CB) as [L1 L2]. fold U in L1, L2. set (e := exp10 c U) in *. clearbody e. unfold le10 in L1, L2.
    assert (E : e = -1).
    { destruct (Z.leb_spec 0 e) as [He|He].
      - exfalso. assert (1 <= 10 ^ e) by (apply (Z.pow_le_mono_r 10 0); lia). nia.
      - destruct (Z.leb_spec 0 (e + 1)) as [He'|He']; [lia|exfalso]. apply L2.
        assert (10 <= 10 ^ (- (e + 1))) by (apply (Z.pow_le_mono_r 10 1); lia). nia. }
    subst e. change (0 <=? 5 - -1) with true. cbv iota. change (5 - -1) with 6.
    rewrite (round_div_at (c * 10 ^ 6) U 500000); [reflexivity|lia|exact PU|change (10 ^ 6) with 1000000; lia]. }
  unfold fmt_g, with_sign. rewrite Ec, Z.div_small by exact Hv. rewrite Z.abs_eq by lia. unfold fmt_gen. rewrite G. reflexivity.
Qed.
