(** Lemmas for P_HeatD2.v *)

From Coq Require Import ZArith List Bool Lia.
From Verif Require Import Base M_Bytes M_Scan M_Flags M_Loop M_Reduce M_FSum M_FMul Spec_Tec Spec Spec_Loop Spec_FSum Spec_FMul.
From Verif Require Import L_Base L_Loop L_Text L_TecMin L_ScanF L_Near L_Print L_Nearest L_Reduce L_FSum L_FMul.
From Verif Require Import M_Heap M_World M_Client M_TimeLoop M_HeatD M_HeatD2 Spec_Client Spec_TimeLoop L_TimeLoop L_HeatRun L_HeatD.
Import ListNotations.
Open Scope Z_scope.

(** One second difference, in numbers. *)
Lemma dir_numbers B U m al a b c t1 s1 s p :
  2 ^ 20 <= B -> 3 * B <= m -> 0 <= al -> Z.abs a <= m -> Z.abs b <= m -> Z.abs c <= m ->
  B * Z.abs (t1 - 2 * b) <= 2 * Z.abs b + B -> B * Z.abs (s1 - (a - t1)) <= Z.abs (a - t1) -> B * Z.abs (s - (s1 + c)) <= Z.abs (s1 + c) ->
  B * Z.abs (p * U - al * s) <= Z.abs (al * s) + B * U ->
  B * Z.abs (p * U - al * (a - 2 * b + c)) <= 18 * (al * m) + B * U.
Proof.
  intros HB Hm Hal Ha Hb Hc E1 E2 E3 E4. assert (M0 : 0 <= m) by (clear - HB Hm; lia). assert (B0 : 0 <= B) by (clear - HB; lia).
  assert (F1 : B * Z.abs (t1 - 2 * b) <= 3 * m) by (clear - E1 Hb Hm HB; lia).
  assert (T1 : Z.abs (t1 - 2 * b) <= m) by (apply (small B _ m 3); auto; clear; lia).
  assert (F2 : B * Z.abs (s1 - (a - t1)) <= 4 * m) by (clear - E2 Ha Hb T1; lia).
  assert (T2 : Z.abs (s1 - (a - t1)) <= m) by (apply (small B _ m 4); auto; clear; lia).
  assert (F3 : B * Z.abs (s - (s1 + c)) <= 6 * m) by (clear - E3 Ha Hb Hc T1 T2; lia).
  set (e := s - (a - 2 * b + c)).
  assert (Fe : B * Z.abs e <= 13 * m).
  { apply (Z.le_trans _ (B * (Z.abs (t1 - 2 * b) + Z.abs (s1 - (a - t1)) + Z.abs (s - (s1 + c))))); [apply Z.mul_le_mono_nonneg_l; [exact B0|unfold e; clear; lia]|]. rewrite !Z.mul_add_distr_l. clear - F1 F2 F3. lia. }
  assert (Te : Z.abs e <= m) by (apply (small B _ m 13); auto; clear; lia).
  assert (Ts : Z.abs s <= 5 * m) by (unfold e in Te; clear - Te Ha Hb Hc; lia).
  rewrite Z.abs_mul, (Z.abs_eq al) in E4 by exact Hal.
  assert (G1 : al * Z.abs s <= 5 * (al * m)) by (clear - Ts Hal; nia).
  assert (G2 : B * (al * Z.abs e) <= 13 * (al * m)). { replace (B * (al * Z.abs e)) with (al * (B * Z.abs e)) by ring. replace (13 * (al * m)) with (al * (13 * m)) by ring. apply Z.mul_le_mono_nonneg_l; assumption. }
  apply (Z.le_trans _ (B * (Z.abs (p * U - al * s) + al * Z.abs e))).
  - apply Z.mul_le_mono_nonneg_l; [exact B0|]. replace (p * U - al * (a - 2 * b + c)) with (p * U - al * s + al * e) by (unfold e; ring).
    replace (al * Z.abs e) with (Z.abs (al * e)) by (rewrite Z.abs_mul, (Z.abs_eq al) by exact Hal; reflexivity). apply Z.abs_triangle.
  - rewrite Z.mul_add_distr_l. clear - E4 G1 G2. lia.
Qed.

Lemma diff_le m a b c : Z.abs a <= m -> Z.abs b <= m -> Z.abs c <= m -> Z.abs (a - 2 * b + c) <= 4 * m.
Proof. lia. Qed.

(** A pass in two dimensions, in numbers. *)
Lemma step2_numbers B U W m al be de a b c d e p1 p2 r q n :
  2 ^ 20 <= B -> 0 < U -> W = U * U -> 3 * B <= m -> 0 <= al -> 0 <= be -> 0 <= de <= 4 * U -> 2 * ((al + be) * de) <= W ->
  Z.abs a <= m -> Z.abs b <= m -> Z.abs c <= m -> Z.abs d <= m -> Z.abs e <= m ->
  B * Z.abs (p1 * U - al * (a - 2 * b + c)) <= 18 * (al * m) + B * U -> B * Z.abs (p2 * U - be * (d - 2 * b + e)) <= 18 * (be * m) + B * U ->
  B * Z.abs (r - (p1 + p2)) <= Z.abs (p1 + p2) -> B * Z.abs (q * U - de * r) <= Z.abs (de * r) + B * U -> B * Z.abs (n - (b + q)) <= Z.abs (b + q) ->
  B * Z.abs n <= (B + 32) * m.
Proof.
  intros HB HU EW Hm Hal Hbe Hde Hk Ha Hb Hc Hd He P1 P2 E3 E4 E5.
  assert (M0 : 0 <= m) by (clear - HB Hm; lia). assert (B0 : 0 <= B) by (clear - HB; lia). assert (U0 : 0 <= U) by (clear - HU; lia). assert (De0 : 0 <= de) by (clear - Hde; lia).
  assert (W0 : 0 < W) by (clear - EW HU; nia). assert (W1 : 0 <= W) by (clear - W0; lia). assert (MW : 0 <= m * W) by (apply Z.mul_nonneg_nonneg; assumption).
  assert (BW : 3 * (B * W) <= m * W) by (clear - Hm W0; nia).
  set (S := al * (a - 2 * b + c) + be * (d - 2 * b + e)). set (K := al + be) in *. assert (K0 : 0 <= K) by (unfold K; clear - Hal Hbe; lia). assert (KM : 0 <= K * m) by (apply Z.mul_nonneg_nonneg; assumption).
  assert (S4 : Z.abs S <= 4 * (K * m)).
  { pose proof (diff_le m a b c Ha Hb Hc) as X. pose proof (diff_le m d b e Hd Hb He) as Y. unfold S, K. eapply Z.le_trans; [apply Z.abs_triangle|]. rewrite !Z.abs_mul, (Z.abs_eq al), (Z.abs_eq be) by assumption.
    apply (Z.mul_le_mono_nonneg_l _ _ al Hal) in X. apply (Z.mul_le_mono_nonneg_l _ _ be Hbe) in Y. clear - X Y. lia. }
  set (x := (p1 + p2) * U - S).
  assert (X1 : B * Z.abs x <= 18 * (K * m) + 2 * (B * U)).
  { apply (Z.le_trans _ (B * (Z.abs (p1 * U - al * (a - 2 * b + c)) + Z.abs (p2 * U - be * (d - 2 * b + e))))).
    - apply Z.mul_le_mono_nonneg_l; [exact B0|]. replace x with ((p1 * U - al * (a - 2 * b + c)) + (p2 * U - be * (d - 2 * b + e))) by (unfold x, S; ring). apply Z.abs_triangle.
    - rewrite Z.mul_add_distr_l. unfold K. clear - P1 P2. lia. }
  assert (X2 : Z.abs x <= K * m + 2 * U).
  { assert (X : B * (Z.abs x - 2 * U) <= 18 * (K * m)) by (rewrite Z.mul_sub_distr_l; clear - X1; lia). apply (small B _ (K * m) 18 HB KM) in X; [clear - X; lia|clear; lia]. }
  assert (X3 : U * Z.abs (p1 + p2) <= 5 * (K * m) + 2 * U).
  { replace (U * Z.abs (p1 + p2)) with (Z.abs ((p1 + p2) * U)) by (rewrite Z.abs_mul, (Z.abs_eq U) by exact U0; ring). unfold x in X2. clear - X2 S4. lia. }
  set (y := r * U - S).
  assert (Y1 : B * Z.abs y <= 23 * (K * m) + 3 * (B * U)).
  { apply (Z.le_trans _ (B * (U * Z.abs (r - (p1 + p2)) + Z.abs x))).
    - apply Z.mul_le_mono_nonneg_l; [exact B0|]. replace y with (U * (r - (p1 + p2)) + x) by (unfold x, y; ring). eapply Z.le_trans; [apply Z.abs_triangle|]. rewrite Z.abs_mul, (Z.abs_eq U) by exact U0. apply Z.le_refl.
    - apply (Z.mul_le_mono_nonneg_l _ _ U U0) in E3. replace (U * (B * Z.abs (r - (p1 + p2)))) with (B * (U * Z.abs (r - (p1 + p2)))) in E3 by ring. rewrite Z.mul_add_distr_l.
      assert (Z1 : 2 * U <= B * U) by (clear - HB HU; nia). clear - E3 X1 X3 Z1. lia. }
  assert (KW : 2 * (de * (K * m)) <= m * W). { replace (2 * (de * (K * m))) with (m * (2 * (K * de))) by ring. apply Z.mul_le_mono_nonneg_l; assumption. }
  assert (DB : de * (B * U) <= 4 * (B * W)). { rewrite EW. replace (de * (B * U)) with ((B * U) * de) by ring. replace (4 * (B * (U * U))) with ((B * U) * (4 * U)) by ring. apply Z.mul_le_mono_nonneg_l; [clear - B0 U0; nia|exact (proj2 Hde)]. }
  assert (Y2 : B * (de * Z.abs y) <= 16 * (m * W)).
  { apply (Z.mul_le_mono_nonneg_l _ _ de De0) in Y1. replace (de * (B * Z.abs y)) with (B * (de * Z.abs y)) in Y1 by ring. rewrite Z.mul_add_distr_l in Y1.
    replace (de * (23 * (K * m))) with (23 * (de * (K * m))) in Y1 by ring. replace (de * (3 * (B * U))) with (3 * (de * (B * U))) in Y1 by ring.
    revert Y1 KW DB BW MW. generalize (B * (de * Z.abs y)), (de * (K * m)), (de * (B * U)), (B * W), (m * W). clear. intros. lia. }
  assert (Y3 : de * Z.abs y <= m * W) by (apply (small B _ (m * W) 16); auto; clear; lia).
  assert (Y4 : U * Z.abs (de * r) <= 3 * (m * W)).
  { rewrite Z.abs_mul, (Z.abs_eq de) by exact De0. replace (U * (de * Z.abs r)) with (de * (U * Z.abs r)) by ring. apply (Z.le_trans _ (de * (4 * (K * m) + Z.abs y))).
    - apply Z.mul_le_mono_nonneg_l; [exact De0|]. replace (U * Z.abs r) with (Z.abs (r * U)) by (rewrite Z.abs_mul, (Z.abs_eq U) by exact U0; ring). unfold y. clear - S4. lia.
    - rewrite Z.mul_add_distr_l. replace (de * (4 * (K * m))) with (4 * (de * (K * m))) by ring. clear - Y3 KW. lia. }
  set (z := q * U - de * r) in *.
  assert (Z1 : B * (U * Z.abs z) <= 4 * (m * W)).
  { apply (Z.mul_le_mono_nonneg_l _ _ U U0) in E4. replace (U * (B * Z.abs z)) with (B * (U * Z.abs z)) in E4 by ring. rewrite Z.mul_add_distr_l in E4. replace (U * (B * U)) with (B * W) in E4 by (rewrite EW; ring).
    revert E4 Y4 BW MW. generalize (B * (U * Z.abs z)), (U * Z.abs (de * r)), (B * W), (m * W). clear. intros. lia. }
  assert (CX : Z.abs (W * b + de * S) <= W * m).
  { replace (W * b + de * S) with ((W - 2 * (K * de)) * b + (al * de) * a + (al * de) * c + (be * de) * d + (be * de) * e) by (unfold S, K; ring).
    replace (W * m) with ((W - 2 * (K * de)) * m + (al * de) * m + (al * de) * m + (be * de) * m + (be * de) * m) by (unfold K; ring).
    assert (A0 : 0 <= al * de) by (apply Z.mul_nonneg_nonneg; assumption). assert (C0 : 0 <= be * de) by (apply Z.mul_nonneg_nonneg; assumption). assert (D0 : 0 <= W - 2 * (K * de)) by (clear - Hk; lia).
    assert (G : forall u v, 0 <= u -> Z.abs v <= m -> Z.abs (u * v) <= u * m). { clear. intros u v Hu Hv. rewrite Z.abs_mul, (Z.abs_eq u) by exact Hu. apply Z.mul_le_mono_nonneg_l; assumption. }
    pose proof (G _ _ D0 Hb) as G1. pose proof (G _ _ A0 Ha) as G2. pose proof (G _ _ A0 Hc) as G3. pose proof (G _ _ C0 Hd) as G4. pose proof (G _ _ C0 He) as G5.
    revert G1 G2 G3 G4 G5. generalize ((W - 2 * (K * de)) * b), ((W - 2 * (K * de)) * m), (al * de * a), (al * de * m), (al * de * c), (be * de * d), (be * de * e), (be * de * m). clear. intros. lia. }
  assert (TQ : W * Z.abs (b + q) <= W * m + U * Z.abs z + de * Z.abs y).
  { replace (W * Z.abs (b + q)) with (Z.abs (W * (b + q))) by (rewrite Z.abs_mul, (Z.abs_eq W) by exact W1; reflexivity).
    replace (W * (b + q)) with (W * b + de * S + U * z + de * y) by (unfold y, z; rewrite EW; ring).
    replace (U * Z.abs z) with (Z.abs (U * z)) by (rewrite Z.abs_mul, (Z.abs_eq U) by exact U0; reflexivity). replace (de * Z.abs y) with (Z.abs (de * y)) by (rewrite Z.abs_mul, (Z.abs_eq de) by exact De0; reflexivity).
    revert CX. generalize (W * b + de * S), (U * z), (de * y), (W * m). clear. intros. lia. }
  assert (FQ : B * Z.abs (b + q) <= (B + 20) * m).
  { apply (Z.mul_le_mono_pos_l _ _ W W0). apply (Z.mul_le_mono_nonneg_l _ _ B B0) in TQ.
    replace (W * (B * Z.abs (b + q))) with (B * (W * Z.abs (b + q))) by ring. replace (W * ((B + 20) * m)) with (B * (W * m) + 20 * (m * W)) by ring. rewrite !Z.mul_add_distr_l in TQ.
    revert TQ Z1 Y2. generalize (B * (W * Z.abs (b + q))), (B * (W * m)), (B * (U * Z.abs z)), (B * (de * Z.abs y)), (m * W). clear. intros. lia. }
  assert (SQ : Z.abs (b + q) <= 2 * m) by (clear - FQ HB M0; revert FQ; generalize (Z.abs (b + q)); intros v FQ; nia).
  assert (FN : B * Z.abs n <= B * Z.abs (b + q) + B * Z.abs (n - (b + q))) by (rewrite <- Z.mul_add_distr_l; apply Z.mul_le_mono_nonneg_l; [exact B0|clear; lia]).
  rewrite Z.mul_add_distr_r in *. clear - FQ SQ FN E5 M0. revert FQ SQ FN E5. generalize (B * Z.abs n), (B * Z.abs (b + q)), (B * Z.abs (n - (b + q))), (Z.abs (b + q)), (B * m). intros. lia.
Qed.

(** One second difference in [double]. *)
Lemma lapD_near A al m a b c va vb vc : 0 <= A < 2 ^ 64 -> num64 A = Fin al -> 0 <= al <= 2 ^ 50 * U -> 3 * 2 ^ 53 <= m -> m <= 2 ^ 36 * U ->
  num64 a = Fin va -> Z.abs va <= m -> num64 b = Fin vb -> 0 <= b < 2 ^ 64 -> Z.abs vb <= m -> num64 c = Fin vc -> Z.abs vc <= m ->
  exists p, num64 (lapD A a b c) = Fin p /\ 0 <= lapD A a b c < 2 ^ 64 /\ Z.abs p <= 2 ^ 93 * U /\
    2 ^ 53 * Z.abs (p * U - al * (va - 2 * vb + vc)) <= 18 * (al * m) + 2 ^ 53 * U.
Proof.
  intros RA EA Hal M1 M2 Ea La Eb Rb Lb Ec Lc. unfold lapD.
  pose proof U_pos as PU. pose proof dmax_U as PD. assert (HB : 1 <= 2 ^ 53) by (apply Z.leb_le; reflexivity). assert (HB2 : 2 ^ 20 <= 2 ^ 53) by (apply Z.leb_le; reflexivity).
  assert (DU : 2 ^ 100 * U * U <= double_max * U) by (apply Z.mul_le_mono_nonneg_r; [clear - PU; lia|exact PD]).
  assert (UU1 : U <= U * U) by (clear - PU; nia).
  destruct (of_whole_exact 2) as [E2 R2]; [split; [lia|reflexivity]|]. assert (R2' : 0 <= of_whole 2 < 2 ^ 64) by (split; [apply R2|apply (Z.lt_trans _ (2 ^ 63)); [apply R2|reflexivity]]).
  destruct (dmul_near (of_whole 2) b (2 * U) vb R2' Rb E2 Eb) as (t1 & Et & Rt & Nt).
  { assert (X : Z.abs (2 * U * vb) <= 2 * U * m) by (apply prod_le; [clear - PU; lia|exact Lb]). assert (Y : 2 * U * m <= 2 * U * (2 ^ 36 * U)) by (apply Z.mul_le_mono_nonneg_l; [clear - PU; lia|exact M2]).
    clear - X Y DU UU1 PU. lia. }
  apply scaled in Nt. assert (Lt : Z.abs t1 <= 2 * Z.abs (2 * vb) + 1) by (apply (near2 (2 ^ 53)); [exact HB|lia|]; clear - Nt; lia).
  assert (Lt' : Z.abs t1 <= 5 * m) by (clear - Lt Lb M1; lia). clear Lt.
  pose proof (fneg_num _ _ Rt Et) as En. unfold dsub.
  destruct (dadd_near a (fneg Double (dmul (of_whole 2) b)) va (- t1) Ea En) as (s1 & Es1 & Rs1 & Ns1 & _); [clear - La Lt' M2 PD PU; lia|].
  replace (va + - t1) with (va - t1) in Ns1 by ring. assert (Ls1 : Z.abs s1 <= 12 * m). { pose proof Ns1 as X. apply near1 in X; [|exact HB]. clear - X La Lt'. lia. }
  destruct (dadd_near _ c s1 vc Es1 Ec) as (s & Es & Rs & Ns & _); [clear - Ls1 Lc M2 PD PU; lia|].
  assert (Ls : Z.abs s <= 26 * m). { pose proof Ns as X. apply near1 in X; [|exact HB]. clear - X Ls1 Lc. lia. }
  assert (Las : Z.abs (al * s) <= 2 ^ 50 * U * (2 ^ 41 * U)). { apply prod_le; [clear - Hal; lia|clear - Ls M2; lia]. }
  destruct (dmul_near A _ al s RA Rs EA Es) as (p & Ep & Rp & Np); [clear - Las DU UU1 PU; lia|].
  exists p. split; [exact Ep|]. split; [exact Rp|]. split.
  - apply (Z.mul_le_mono_pos_r _ _ U PU). pose proof (near2 (2 ^ 53) (p * U) (al * s) U HB ltac:(clear - PU; lia) Np) as X. rewrite Z.abs_mul, (Z.abs_eq U) in X by (clear - PU; lia). clear - X Las UU1 PU. lia.
  - exact (dir_numbers (2 ^ 53) U m al va vb vc t1 s1 s p HB2 M1 (proj1 Hal) La Lb Lc Nt Ns1 Ns Np).
Qed.

Lemma heatD2_step A B dt al be de m a b c d e : 0 <= A < 2 ^ 64 -> 0 <= B < 2 ^ 64 -> 0 <= dt < 2 ^ 64 -> num64 A = Fin al -> num64 B = Fin be -> num64 dt = Fin de ->
  0 <= al <= 2 ^ 50 * U -> 0 <= be <= 2 ^ 50 * U -> 0 <= de <= 4 * U -> 2 * ((al + be) * de) <= U * U -> 3 * 2 ^ 53 <= m -> m <= 2 ^ 36 * U ->
  bnd m a -> bnd m b -> bnd m c -> bnd m d -> bnd m e ->
  exists n, num64 (advD dt b (lapyD B (lapD A a b c) d b e)) = Fin n /\ 0 <= advD dt b (lapyD B (lapD A a b c) d b e) < 2 ^ 64 /\ 2 ^ 53 * Z.abs n <= (2 ^ 53 + 32) * m.
Proof.
  intros RA RB Rd EA EB Ed Hal Hbe Hde Hk M1 M2 (va & Ea & Ra & La) (vb & Eb & Rb & Lb) (vc & Ec & Rc & Lc) (vd & Edd & Rdd & Ld) (ve & Ee & Re & Le).
  destruct (lapD_near A al m a b c va vb vc RA EA Hal M1 M2 Ea La Eb Rb Lb Ec Lc) as (p1 & Ep1 & Rp1 & Lp1 & N1).
  destruct (lapD_near B be m d b e vd vb ve RB EB Hbe M1 M2 Edd Ld Eb Rb Lb Ee Le) as (p2 & Ep2 & Rp2 & Lp2 & N2).
  unfold advD, lapyD. pose proof U_pos as PU. pose proof dmax_U as PD. assert (HB : 1 <= 2 ^ 53) by (apply Z.leb_le; reflexivity). assert (HB2 : 2 ^ 20 <= 2 ^ 53) by (apply Z.leb_le; reflexivity).
  assert (DU : 2 ^ 100 * U * U <= double_max * U) by (apply Z.mul_le_mono_nonneg_r; [clear - PU; lia|exact PD]).
  assert (UU1 : U <= U * U) by (clear - PU; nia).
  destruct (dadd_near _ _ p1 p2 Ep1 Ep2) as (r & Er & Rr & Nr & _); [clear - Lp1 Lp2 PD PU; lia|].
  assert (Lr : Z.abs r <= 2 ^ 95 * U). { pose proof Nr as X. apply near1 in X; [|exact HB]. clear - X Lp1 Lp2. lia. }
  assert (Ldr : Z.abs (de * r) <= 4 * U * (2 ^ 95 * U)) by (apply prod_le; [clear - Hde; lia|exact Lr]).
  destruct (dmul_near dt _ de r Rd Rr Ed Er) as (q & Eq & Rq & Nq); [clear - Ldr DU UU1 PU; lia|].
  assert (Lq : Z.abs q <= 2 ^ 99 * U).
  { apply (Z.mul_le_mono_pos_r _ _ U PU). pose proof (near2 (2 ^ 53) (q * U) (de * r) U HB ltac:(clear - PU; lia) Nq) as X. rewrite Z.abs_mul, (Z.abs_eq U) in X by (clear - PU; lia). clear - X Ldr UU1 PU. lia. }
  destruct (dadd_near b _ vb q Eb Eq) as (n & Enn & Rn & Nn & _); [clear - Lb Lq M2 PD PU; lia|].
  exists n. split; [exact Enn|]. split; [exact Rn|].
  exact (step2_numbers (2 ^ 53) U (U * U) m al be de va vb vc vd ve p1 p2 r q n HB2 PU eq_refl M1 (proj1 Hal) (proj1 Hbe) Hde Hk La Lb Lc Ld Le N1 N2 Nr Nq Nn).
Qed.

Lemma bnd_neg m v : bnd m v -> bnd m (fneg Double v).
Proof.
  intros (a & E & R & L). exists (- a). split; [exact (fneg_num v a R E)|]. split; [|rewrite Z.abs_opp; exact L].
  unfold fneg. change (2 ^ (fbits Double - 1)) with (2 ^ 63). cbv zeta. change (2 ^ 64) with (2 * 2 ^ 63) in *. revert R. generalize (2 ^ 63). intros z R. destruct (Z.ltb_spec v z); lia.
Qed.

Section Iter2.
Variables (Nx Ny A B dt al be de m : Z).
Hypothesis HNx : 2 <= Nx.
Hypothesis HNy : 2 <= Ny.
Hypothesis RA : 0 <= A < 2 ^ 64.
Hypothesis RB : 0 <= B < 2 ^ 64.
Hypothesis Rd : 0 <= dt < 2 ^ 64.
Hypothesis EA : num64 A = Fin al.
Hypothesis EB : num64 B = Fin be.
Hypothesis Ed : num64 dt = Fin de.
Hypothesis Hal : 0 <= al <= 2 ^ 50 * U.
Hypothesis Hbe : 0 <= be <= 2 ^ 50 * U.
Hypothesis Hde : 0 <= de <= 4 * U.
Hypothesis Hk : 2 * ((al + be) * de) <= U * U.
Hypothesis M1 : 3 * 2 ^ 53 <= m.
Hypothesis M2 : m <= 2 ^ 35 * U.
Let stepD := heat_step2 Nx Ny (fneg Double) (lapD A) (lapyD B) (advD dt).

Lemma iterD2 k (f : Z -> Z -> Z) : Z.of_nat k <= 2 ^ 47 -> (forall i j, 0 <= i < Nx -> 0 <= j < Ny -> bnd m (f i j)) ->
  forall i j, 0 <= i < Nx -> 0 <= j < Ny -> exists x, num64 (Nat.iter k stepD f i j) = Fin x /\
    0 <= Nat.iter k stepD f i j < 2 ^ 64 /\ (2 ^ 48 - Z.of_nat k) * Z.abs x <= 2 ^ 48 * m.
Proof.
  intros Hkk H. induction k as [|k IH]; intros i j Hi Hj.
  - destruct (H i j Hi Hj) as (a & E & R & L). exists a. split; [exact E|]. split; [exact R|]. change (Z.of_nat 0) with 0. rewrite Z.sub_0_r. apply Z.mul_le_mono_nonneg_l; [discriminate|exact L].
  - rewrite Nat2Z.inj_succ in *. specialize (IH ltac:(clear - Hkk; lia)). change (Nat.iter (Datatypes.S k) stepD f) with (stepD (Nat.iter k stepD f)). set (g := Nat.iter k stepD f) in *. clearbody g.
    set (l := Z.of_nat k) in *. assert (J0 : 0 <= l) by (unfold l; lia). clearbody l. set (x := 2 ^ 48 * m / (2 ^ 48 - l)).
    assert (C0 : 0 < 2 ^ 48 - l) by (clear - Hkk; lia).
    assert (X1 : x * (2 ^ 48 - l) <= 2 ^ 48 * m) by (rewrite Z.mul_comm; apply Z.mul_div_le; exact C0).
    assert (M0 : 0 <= m) by (clear - M1; lia).
    assert (X2 : m <= x) by (apply Z.div_le_lower_bound; [exact C0|]; clear - J0 M0; nia).
    assert (X3 : x <= 2 * m) by (apply Z.div_le_upper_bound; [exact C0|]; clear - Hkk M0; nia).
    assert (G : forall i j, 0 <= i < Nx -> 0 <= j < Ny -> bnd x (g i j)).
    { intros i' j' Hi' Hj'. destruct (IH i' j' Hi' Hj') as (y & E & R & L). exists y. split; [exact E|]. split; [exact R|]. apply Z.div_le_lower_bound; [exact C0|exact L]. }
    assert (Gx : forall i', -1 <= i' <= Nx -> bnd x (ext_x (fneg Double) Nx g i' j)).
    { intros i' Hi'. unfold ext_x. destruct (Z.ltb_spec i' 0); [apply bnd_neg, G; [lia|exact Hj]|]. destruct (Z.leb_spec Nx i'); [apply bnd_neg, G; [lia|exact Hj]|apply G; [lia|exact Hj]]. }
    assert (Gy : forall j', -1 <= j' <= Ny -> bnd x (ext_y Ny g i j')).
    { intros j' Hj'. unfold ext_y, ext. destruct (Z.ltb_spec j' 0); [apply G; [exact Hi|lia]|]. destruct (Z.leb_spec Ny j'); apply G; try exact Hi; lia. }
    unfold stepD, heat_step2. cbv zeta.
    destruct (heatD2_step A B dt al be de x (ext_x (fneg Double) Nx g (i - 1) j) (g i j) (ext_x (fneg Double) Nx g (i + 1) j) (ext_y Ny g i (j - 1)) (ext_y Ny g i (j + 1)) RA RB Rd EA EB Ed Hal Hbe Hde Hk
      ltac:(clear - X2 M1; lia) ltac:(clear - X3 M2; lia) (Gx (i - 1) ltac:(clear - Hi; lia)) (G i j Hi Hj) (Gx (i + 1) ltac:(clear - Hi; lia)) (Gy (j - 1) ltac:(clear - Hj; lia)) (Gy (j + 1) ltac:(clear - Hj; lia))) as (n & En & Rn & Ln).
    exists n. split; [exact En|]. split; [exact Rn|]. apply (grow (2 ^ 48) l m x); [exact J0|clear - Hkk; lia|apply Z.abs_nonneg|exact X1|].
    change (2 ^ 53) with (32 * 2 ^ 48) in Ln. clear - Ln. lia.
Qed.
End Iter2.

(** The constants of Example_D2_heat. *)
Lemma consts2 N : 1 <= N <= 2 ^ 23 -> exists al be de, num64 (a_hh_x2 N) = Fin al /\ num64 (a_hh_y2 N) = Fin be /\ num64 (dt2 N) = Fin de /\
  0 <= a_hh_x2 N < 2 ^ 64 /\ 0 <= a_hh_y2 N < 2 ^ 64 /\ 0 <= dt2 N < 2 ^ 64 /\
  0 <= al <= 2 ^ 50 * U /\ 0 <= be <= 2 ^ 50 * U /\ 0 <= de <= 4 * U /\ 2 * ((al + be) * de) <= U * U.
Proof.
  intros HN. change (2 ^ 23) with 8388608 in HN. assert (B31 : 2 ^ 31 = 2147483648) by reflexivity. assert (B47 : 2 ^ 47 = 140737488355328) by reflexivity.
  unfold dt2, a_hh_x2, hx2, a_hh_y2, hy2.
  rewrite (uwrap_small (N + 1)) by (unfold in_uint; lia). rewrite (uwrap_small (2 * N)) by (unfold in_uint; lia).
  rewrite (uwrap_small (2 * N + 1)) by (unfold in_uint; lia). rewrite (uwrap_small (N + 1 - 1)) by (unfold in_uint; lia). rewrite (uwrap_small (2 * N + 1 - 1)) by (unfold in_uint; lia).
  replace (N + 1 - 1) with N by ring. replace (2 * N + 1 - 1) with (2 * N) by ring.
  destruct (h_within N) as (b & E & R & W); [lia|]. destruct (hy_within (2 * N)) as (b' & E' & R' & W'); [lia|].
  destruct (step_within 4 62831852 (10000000 * N) 3 (ddiv (dsub pi (fneg Double pi)) (of_whole N)) b ltac:(lia) ltac:(lia) ltac:(lia) ltac:(lia) ltac:(lia) ltac:(discriminate) R E W) as [(x & Ex & Rx & Wx) (w & Ew & Rw & Ww)].
  destruct (step_within 1 125663704 (10000000 * (2 * N)) 4 (ddiv (dsub (dmul (of_whole 2) pi) (dmul (of_whole (-2)) pi)) (of_whole (2 * N))) b' ltac:(lia) ltac:(lia) ltac:(lia) ltac:(lia) ltac:(lia) ltac:(discriminate) R' E' W') as [(y & Ey & Ry & Wy) _].
  assert (G : y < x).
  { apply (within_lt (4 * 4 + 2) (4 * 3 + 2) y x _ _ _ _) with (5 := Wy) (6 := Wx); try reflexivity; try nia. }
  unfold dgt. rewrite Ex, Ey. cbn [num_lt]. destruct (Z.ltb_spec y x); [|lia]. exists x, y, w. split; [reflexivity|]. split; [reflexivity|]. split; [exact Ew|].
  assert (B64 : 2 ^ 63 < 2 ^ 64) by reflexivity. split; [clear - B64 Rx; lia|]. split; [clear - B64 Ry; lia|]. split; [clear - B64 Rw; lia|].
  clear B64 Rx Ry Rw Ex Ey Ew E R W E' R' W' B47 B31 H.
  replace (1 * (10000000 * (2 * N) * (10000000 * (2 * N)))) with (4 * (10000000 * N * (10000000 * N))) in Wy by ring. replace (125663704 * 125663704) with (4 * (62831852 * 62831852)) in Wy by reflexivity.
  set (P := 62831852 * 62831852) in *. set (Q := 10000000 * N * (10000000 * N)) in *. assert (Q1 : 100000000000000 <= Q <= 100000000000000 * (8388608 * 8388608)) by (unfold Q; nia).
  pose proof U_pos as PU. assert (P2 : 3900000000000000 <= P <= 3950000000000000) by (unfold P; lia). clearbody P Q.
  pose proof (within_nonneg _ x (4 * Q) P ltac:(lia) ltac:(lia) Wx) as A0. pose proof (within_nonneg _ y (4 * Q) (4 * P) ltac:(lia) ltac:(lia) Wy) as C0. pose proof (within_nonneg _ w P (10 * (4 * Q)) ltac:(lia) ltac:(lia) Ww) as D0.
  apply within_half in Wx; [|discriminate|lia]. apply within_half in Wy; [|discriminate|lia]. apply within_half in Ww; [|discriminate|lia].
  destruct Wx as [_ Wx]. destruct Wy as [_ Wy]. destruct Ww as [_ Ww]. revert Wx Wy Ww PU. generalize U. intros u Wx Wy Ww PU. change (2 ^ 50) with 1125899906842624.
  assert (K1 : x * P <= 8 * (Q * u)) by lia. assert (K2 : y * P <= 2 * (Q * u)) by lia. assert (K3 : 20 * (w * Q) <= P * u) by lia. clear Wx Wy Ww.
  split; [split; [exact A0|]|]. { apply (Z.mul_le_mono_pos_r _ _ P); [lia|]. clear - K1 Q1 P2 PU. nia. }
  split; [split; [exact C0|]|]. { apply (Z.mul_le_mono_pos_r _ _ P); [lia|]. clear - K2 Q1 P2 PU. nia. }
  split; [split; [exact D0|]|]. { apply (Z.mul_le_mono_pos_r _ _ Q); [lia|]. clear - K3 Q1 P2 PU. nia. }
  assert (PQ : 0 < P * Q) by (clear - P2 Q1; nia). apply (Z.mul_le_mono_pos_r _ _ (P * Q) PQ).
  assert (K4 : (x + y) * P * (20 * (w * Q)) <= 10 * (Q * u) * (P * u)).
  { apply Z.mul_le_mono_nonneg; [clear - A0 C0 P2; nia|rewrite Z.mul_add_distr_r; clear - K1 K2; lia|clear - D0 Q1; nia|exact K3]. }
  replace ((x + y) * P * (20 * (w * Q))) with (20 * ((x + y) * w * (P * Q))) in K4 by ring. replace (10 * (Q * u) * (P * u)) with (10 * (u * u * (P * Q))) in K4 by ring.
  clear - K4. lia.
Qed.

Lemma few_passes2 N : 1 <= N <= 2 ^ 23 -> exists k, Z.of_nat k <= 2 ^ 47 /\ (1 <= k)%nat /\
  dge (flow_at (dt2 N) k) time_stop2 = true /\ (forall i, (1 <= i < k)%nat -> dge (flow_at (dt2 N) i) time_stop2 = false).
Proof.
  intros HN. change (2 ^ 23) with 8388608 in HN. destruct (dt2_within N) as (w & Ew & Ww); [change (2 ^ 29) with 536870912; lia|].
  destruct (lit_within 1 10) as (T & ET & _ & WT); try (apply Z.leb_le || apply Z.ltb_lt; reflexivity).
  set (q := 10 * (4 * (10000000 * N * (10000000 * N)))) in *. assert (Q0 : 4000000000000000 <= q <= 4000000000000000 * (8388608 * 8388608)) by (unfold q; nia). clearbody q.
  pose proof (within_half 1 T 1 10 ltac:(apply Z.leb_le; reflexivity) ltac:(lia) WT) as [H1 H2]. pose proof U_pos as PU.
  destruct (steps_exist 30 (dt2 N) time_stop2 w (62831852 * 62831852) q T Ew ET ltac:(lia) ltac:(lia) Ww) as (k & A & B & C & D & _).
  - lia.
  - apply Z.leb_le. reflexivity.
  - assert (H3 : 10 * T <= 2 * U) by lia. revert PU H3. generalize U. clear - Q0. change (2 ^ 50) with 1125899906842624. intros z P H3. assert (5 * (T * q) <= z * q) by nia.
    assert (z * q <= z * (4000000000000000 * (8388608 * 8388608))) by (apply Z.mul_le_mono_nonneg_l; lia). lia.
  - assert (1 <= 2 ^ 90) by (apply Z.leb_le; reflexivity). assert (T <= 1 * U) by lia. assert (1 * U <= 2 ^ 90 * U) by (apply Z.mul_le_mono_nonneg_r; lia). lia.
  - change (2 ^ 90) with (4096 * 2 ^ 78). assert (1 <= 2 ^ 78) by (apply Z.leb_le; reflexivity). nia.
  - exists k. split; [|split; [exact (proj1 A)|auto]]. assert (H3 : 5 * T <= U) by lia. revert PU H3 D. generalize U. intros z P H3 D.
    assert (K : (Z.of_nat k - 1) * (62831852 * 62831852) < q).
    { apply (Z.mul_lt_mono_pos_r z); [exact P|]. assert (5 * (T * q) <= z * q) by (clear - H3 Q0; nia). assert (0 <= z * q) by (clear - P Q0; nia). clear - D H H0. lia. }
    change (2 ^ 47) with 140737488355328. clear - K Q0. lia.
Qed.
