(** Lemmas for P_HeatD.v *)

From Coq Require Import ZArith List Bool Lia.
From Verif Require Import Base M_Bytes M_Scan M_Flags M_Loop M_Reduce M_FSum M_FMul Spec_Tec Spec Spec_Loop Spec_FSum Spec_FMul.
From Verif Require Import L_Base L_Loop L_Text L_TecMin L_ScanF L_Near L_Print L_Nearest L_Reduce L_FSum L_FMul.
From Verif Require Import M_Heap M_World M_Client M_TimeLoop M_HeatD Spec_Client Spec_TimeLoop L_TimeLoop L_HeatRun.
Import ListNotations.
Open Scope Z_scope.

(** A product up to one rounding and one unit. *)
Lemma dmul_near x y a b : 0 <= x < 2 ^ 64 -> 0 <= y < 2 ^ 64 -> num64 x = Fin a -> num64 y = Fin b -> Z.abs (a * b) <= double_max * U ->
  exists c, num64 (dmul x y) = Fin c /\ 0 <= dmul x y < 2 ^ 64 /\ 2 ^ 53 * Z.abs (c * U - a * b) <= Z.abs (a * b) + 2 ^ 53 * U.
Proof.
  intros Hx Hy Ex Ey H. pose proof U_pos as PU. destruct (dmul_nearest x y a b Hx Hy Ex Ey H) as (c & Ec & Nc). exists c. split; [exact Ec|].
  assert (R : 0 <= dmul x y < 2 ^ 64).
  { destruct (Z.eq_dec (a * b) 0) as [E|N]; [apply (dmul_zero x y a b Hx Hy Ex Ey E)|]. unfold dmul. rewrite Ex, Ey, <- Z.abs_mul, UU.
    rewrite <- dmax_eq, <- Z.mul_assoc in H. destruct (round_f64_nearest (Z.abs (a * b)) (U * U)) as (w & E & _ & R & _); [lia|nia|exact H|]. apply signed_range. exact R. }
  split; [exact R|]. destruct (Z.le_gt_cases (2 ^ 52 * U) (Z.abs (a * b))) as [L|L].
  - rewrite <- dmax_eq, <- Z.mul_assoc in H. destruct (dmul_rel x y a b Hx Hy Ex Ey L H) as (c' & Ec' & _ & Sc & K1 & K2). rewrite Ec in Ec'. apply Fin_inj in Ec'. subst c'.
    clear Nc Ec. assert (P : 0 < 2 ^ 52 * U) by nia. assert (HB : 0 < 2 ^ 53) by reflexivity. revert L P HB K1 K2. generalize (2 ^ 53), (2 ^ 52 * U). intros B D L P HB K1 K2.
    destruct (Z.lt_trichotomy (a * b) 0) as [S|[S|S]].
    + rewrite (Z.abs_neq (a * b)) in * by lia. rewrite (Z.sgn_neg (a * b)) in Sc by lia. assert (C : c < 0) by (apply Z.sgn_neg_iff; exact Sc). rewrite (Z.abs_neq c) in * by lia.
      destruct (Z.abs_spec (c * U - a * b)) as [[_ ->]|[_ ->]]; nia.
    + rewrite S in L. cbn in L. lia.
    + rewrite (Z.abs_eq (a * b)) in * by lia. rewrite (Z.sgn_pos (a * b)) in Sc by lia. assert (C : 0 < c) by (apply Z.sgn_pos_iff; exact Sc). rewrite (Z.abs_eq c) in * by lia.
      destruct (Z.abs_spec (c * U - a * b)) as [[_ ->]|[_ ->]]; nia.
  - assert (Q : exists z v, num64 z = Fin v /\ Z.abs (v * U - a * b) <= U).
    { set (t := Z.abs (a * b)) in *. set (n := t / U). assert (N1 : n * U <= t < n * U + U). { unfold n. pose proof (Z.mul_div_le t U PU). pose proof (Z.mul_succ_div_gt t U PU). lia. }
      assert (T0 : 0 <= t) by apply Z.abs_nonneg. assert (N0 : 0 <= n) by (apply Z.div_pos; lia). assert (N2 : n < 2 ^ 52). { apply (Z.mul_lt_mono_pos_r U); lia. }
      assert (Z1 : exists z, num64 z = Fin n).
      { destruct (Z.eq_dec n 0) as [->|]; [exists 0; reflexivity|]. destruct (representable 0 n) as (z & _ & E); [lia|change (2 ^ 53) with (2 * 2 ^ 52); lia|]. exists z. rewrite E. f_equal. apply Z.mul_1_r. }
      destruct Z1 as (z & Ez). unfold t in *. destruct (Z.abs_spec (a * b)) as [[S E]|[S E]]; rewrite E in *.
      - exists z, n. split; [exact Ez|]. lia.
      - destruct (finite_neg z n Ez) as (z' & Ez'). exists z', (- n). split; [exact Ez'|]. lia. }
    destruct Q as (z & v & Ez & Hv). specialize (Nc z v Ez). assert (0 <= Z.abs (a * b)) by apply Z.abs_nonneg. assert (HB : 0 < 2 ^ 53) by reflexivity.
    assert (X : Z.abs (c * U - a * b) <= U) by lia. apply (Z.mul_le_mono_nonneg_l _ _ (2 ^ 53)) in X; lia.
Qed.

Lemma small B x m c : 2 ^ 20 <= B -> 0 <= m -> 0 <= c <= 100 -> B * x <= c * m -> x <= m.
Proof. change (2 ^ 20) with 1048576. intros. destruct (Z.le_gt_cases x m); [assumption|]. nia. Qed.

(** The bound for one step, in numbers. *)
Lemma step_numbers B U W m al de a b c t1 s1 s p q n :
  2 ^ 20 <= B -> 0 < U -> W = U * U -> 3 * B <= m -> 0 <= al -> 0 <= de <= 4 * U -> 2 * (al * de) <= W ->
  Z.abs a <= m -> Z.abs b <= m -> Z.abs c <= m ->
  B * Z.abs (t1 - 2 * b) <= 2 * Z.abs b + B -> B * Z.abs (s1 - (a - t1)) <= Z.abs (a - t1) -> B * Z.abs (s - (s1 + c)) <= Z.abs (s1 + c) ->
  B * Z.abs (p * U - al * s) <= Z.abs (al * s) + B * U -> B * Z.abs (q * U - de * p) <= Z.abs (de * p) + B * U ->
  B * Z.abs (n - (b + q)) <= Z.abs (b + q) ->
  B * Z.abs n <= (B + 32) * m.
Proof.
  intros HB HU EW Hm Hal Hde Hk Ha Hb Hc E1 E2 E3 E4 E5 E6.
  assert (M0 : 0 <= m) by (clear - HB Hm; lia).
  assert (F1 : B * Z.abs (t1 - 2 * b) <= 3 * m) by (clear - E1 Hb Hm HB; lia).
  assert (T1 : Z.abs (t1 - 2 * b) <= m) by (apply (small B _ m 3); auto; clear; lia).
  assert (F2 : B * Z.abs (s1 - (a - t1)) <= 4 * m) by (clear - E2 Ha Hb T1; lia).
  assert (T2 : Z.abs (s1 - (a - t1)) <= m) by (apply (small B _ m 4); auto; clear; lia).
  assert (F3 : B * Z.abs (s - (s1 + c)) <= 6 * m) by (clear - E3 Ha Hb Hc T1 T2; lia).
  set (e := s - (a - 2 * b + c)).
  assert (Fe : B * Z.abs e <= 13 * m).
  { apply (Z.le_trans _ (B * (Z.abs (t1 - 2 * b) + Z.abs (s1 - (a - t1)) + Z.abs (s - (s1 + c))))); [apply Z.mul_le_mono_nonneg_l; [clear - HB; lia|unfold e; clear; lia]|]. rewrite !Z.mul_add_distr_l. clear - F1 F2 F3. lia. }
  assert (Te : Z.abs e <= m) by (apply (small B _ m 13); auto; clear; lia).
  assert (Ts : Z.abs s <= 5 * m) by (unfold e in Te; clear - Te Ha Hb Hc; lia).
  set (k := al * de) in *. assert (K0 : 0 <= k) by (unfold k; clear - Hal Hde; nia). assert (W0 : 0 < W) by (clear - EW HU; nia).
  assert (B0 : 0 <= B) by (clear - HB; lia). assert (U0 : 0 <= U) by (clear - HU; lia). assert (De0 : 0 <= de) by (clear - Hde; lia). assert (W1 : 0 <= W) by (clear - W0; lia).
  set (e4 := p * U - al * s) in *. set (e5 := q * U - de * p) in *.
  assert (KS : 2 * (k * Z.abs s) <= 5 * (m * W)). { apply (Z.le_trans _ (W * Z.abs s)); [clear - Hk; pose proof (Z.abs_nonneg s); nia|]. clear - Ts W0. nia. }
  assert (BW : 3 * (B * W) <= m * W) by (clear - Hm W0; nia).
  assert (G4 : B * (de * Z.abs e4) <= k * Z.abs s + 4 * (B * W)).
  { rewrite Z.abs_mul, (Z.abs_eq al) in E4 by exact Hal. apply (Z.mul_le_mono_nonneg_l _ _ de) in E4; [|exact De0]. assert (X : de * (B * U) <= 4 * (B * W)). { rewrite EW. replace (de * (B * U)) with ((B * U) * de) by ring. replace (4 * (B * (U * U))) with ((B * U) * (4 * U)) by ring. apply Z.mul_le_mono_nonneg_l; [clear - B0 U0; nia|exact (proj2 Hde)]. }
    rewrite Z.mul_add_distr_l in E4. replace (de * (B * Z.abs e4)) with (B * (de * Z.abs e4)) in E4 by ring. replace (de * (al * Z.abs s)) with (k * Z.abs s) in E4 by (unfold k; ring). clear - E4 X. lia. }
  assert (MW : 0 <= m * W) by (apply Z.mul_nonneg_nonneg; assumption).
  assert (G4' : B * (de * Z.abs e4) <= 4 * (m * W)) by (clear - G4 KS BW MW; revert G4 KS BW MW; generalize (k * Z.abs s), (B * (de * Z.abs e4)), (B * W), (m * W); clear; intros; lia).
  assert (D0 : 0 <= de * Z.abs e4) by (apply Z.mul_nonneg_nonneg; [exact De0|apply Z.abs_nonneg]).
  assert (G4'' : de * Z.abs e4 <= m * W) by (apply (small B _ (m * W) 4); auto; clear; lia).
  assert (GP : U * Z.abs (de * p) <= k * Z.abs s + de * Z.abs e4).
  { rewrite Z.abs_mul, (Z.abs_eq de) by exact De0. replace (k * Z.abs s + de * Z.abs e4) with (de * (al * Z.abs s + Z.abs e4)) by (unfold k; ring).
    replace (U * (de * Z.abs p)) with (de * (U * Z.abs p)) by ring. apply Z.mul_le_mono_nonneg_l; [exact De0|].
    replace (U * Z.abs p) with (Z.abs (p * U)) by (rewrite Z.abs_mul, (Z.abs_eq U) by exact U0; ring). replace (al * Z.abs s) with (Z.abs (al * s)) by (rewrite Z.abs_mul, (Z.abs_eq al) by exact Hal; ring). unfold e4. clear. lia. }
  assert (G5 : B * (U * Z.abs e5) <= 5 * (m * W)).
  { apply (Z.mul_le_mono_nonneg_l _ _ U) in E5; [|exact U0]. replace (U * (B * Z.abs e5)) with (B * (U * Z.abs e5)) in E5 by ring. rewrite Z.mul_add_distr_l in E5. replace (U * (B * U)) with (B * W) in E5 by (rewrite EW; ring). clear - E5 GP KS G4'' BW MW. revert E5 GP KS G4'' BW MW. generalize (B * (U * Z.abs e5)), (U * Z.abs (de * p)), (k * Z.abs s), (de * Z.abs e4), (B * W), (m * W). clear. intros. lia. }
  assert (Ge : B * (k * Z.abs e) * 2 <= 13 * (m * W)).
  { apply (Z.le_trans _ (W * (B * Z.abs e))); [|clear - Fe W1; nia]. assert (X : 0 <= B * Z.abs e) by (apply Z.mul_nonneg_nonneg; [exact B0|apply Z.abs_nonneg]). clear - X Hk. nia. }
  assert (CX : Z.abs (W * b + k * (a - 2 * b + c)) <= W * m).
  { replace (W * b + k * (a - 2 * b + c)) with ((W - 2 * k) * b + k * a + k * c) by ring. apply Z.abs_le. apply Z.abs_le in Ha, Hb, Hc. clear - Ha Hb Hc K0 Hk. assert (X : 0 <= W - 2 * k) by lia. replace (W * m) with ((W - 2 * k) * m + k * m + k * m) by ring. clear Hk. revert X. generalize (W - 2 * k). intros. nia. }
  assert (EQ : W * (b + q) = W * b + k * (a - 2 * b + c) + k * e + U * e5 + de * e4) by (unfold k, e, e4, e5; rewrite EW; ring).
  assert (TQ : W * Z.abs (b + q) <= W * m + k * Z.abs e + U * Z.abs e5 + de * Z.abs e4).
  { replace (W * Z.abs (b + q)) with (Z.abs (W * (b + q))) by (rewrite Z.abs_mul, (Z.abs_eq W) by exact W1; reflexivity). rewrite EQ.
    replace (k * Z.abs e) with (Z.abs (k * e)) by (rewrite Z.abs_mul, (Z.abs_eq k) by exact K0; reflexivity). replace (U * Z.abs e5) with (Z.abs (U * e5)) by (rewrite Z.abs_mul, (Z.abs_eq U) by exact U0; reflexivity).
    replace (de * Z.abs e4) with (Z.abs (de * e4)) by (rewrite Z.abs_mul, (Z.abs_eq de) by exact De0; reflexivity). clear - CX. revert CX. generalize (W * b + k * (a - 2 * b + c)), (k * e), (U * e5), (de * e4), (W * m). clear. intros. lia. }
  assert (FQ : B * Z.abs (b + q) <= (B + 16) * m).
  { apply (Z.mul_le_mono_pos_l _ _ W W0). apply (Z.mul_le_mono_nonneg_l _ _ B) in TQ; [|exact B0]. clear - TQ G4' G5 Ge MW.
    replace (W * (B * Z.abs (b + q))) with (B * (W * Z.abs (b + q))) by ring. replace (W * ((B + 16) * m)) with (B * (W * m) + 16 * (m * W)) by ring. rewrite !Z.mul_add_distr_l in TQ. revert TQ G4' G5 Ge MW. generalize (B * (W * Z.abs (b + q))), (B * (W * m)), (B * (k * Z.abs e)), (B * (U * Z.abs e5)), (B * (de * Z.abs e4)), (m * W). clear. intros. lia. }
  assert (SQ : Z.abs (b + q) <= 2 * m) by (clear - FQ HB M0; revert FQ; generalize (Z.abs (b + q)); intros z FQ; nia).
  assert (FN : B * Z.abs n <= B * Z.abs (b + q) + B * Z.abs (n - (b + q))) by (rewrite <- Z.mul_add_distr_l; apply Z.mul_le_mono_nonneg_l; [exact B0|clear; lia]).
  rewrite Z.mul_add_distr_r in *. clear - FQ SQ FN E6 M0. revert FQ SQ FN E6. generalize (B * Z.abs n), (B * Z.abs (b + q)), (B * Z.abs (n - (b + q))), (Z.abs (b + q)), (B * m). intros. lia.
Qed.

Lemma near2 B x y e : 1 <= B -> 0 <= e -> B * Z.abs (x - y) <= Z.abs y + B * e -> Z.abs x <= 2 * Z.abs y + e.
Proof.
  intros HB He H. assert (K : Z.abs (x - y) <= Z.abs y + e).
  { apply (Z.mul_le_mono_pos_l _ _ B); [lia|]. pose proof (Z.abs_nonneg y) as Y. revert H Y. generalize (Z.abs (x - y)), (Z.abs y). clear - HB. intros. nia. }
  clear - K. lia.
Qed.
Lemma near1 B x y : 1 <= B -> B * Z.abs (x - y) <= Z.abs y -> Z.abs x <= 2 * Z.abs y.
Proof. intros HB H. pose proof (near2 B x y 0 HB ltac:(lia) ltac:(lia)). lia. Qed.

Definition bnd (m v : Z) : Prop := exists a, num64 v = Fin a /\ 0 <= v < 2 ^ 64 /\ Z.abs a <= m.

Lemma scaled B t b : B * Z.abs (t * U - 2 * U * b) <= Z.abs (2 * U * b) + B * U -> B * Z.abs (t - 2 * b) <= 2 * Z.abs b + B.
Proof.
  pose proof U_pos as PU. replace (t * U - 2 * U * b) with (U * (t - 2 * b)) by ring. replace (2 * U * b) with (U * (2 * b)) by ring. rewrite !Z.abs_mul, (Z.abs_eq U), (Z.abs_eq 2) by lia.
  intros H. apply (Z.mul_le_mono_pos_l _ _ U PU). revert H. generalize (Z.abs (t - 2 * b)), (Z.abs b). clear. intros. lia.
Qed.

Lemma prod_le a b x y : Z.abs a <= x -> Z.abs b <= y -> Z.abs (a * b) <= x * y.
Proof. intros. rewrite Z.abs_mul. apply Z.mul_le_mono_nonneg; try apply Z.abs_nonneg; assumption. Qed.

Lemma heatD_step A dt al de m a b c : 0 <= A < 2 ^ 64 -> 0 <= dt < 2 ^ 64 -> num64 A = Fin al -> num64 dt = Fin de ->
  0 <= al <= 2 ^ 50 * U -> 0 <= de <= 4 * U -> 2 * (al * de) <= U * U -> 3 * 2 ^ 53 <= m -> m <= 2 ^ 36 * U -> bnd m a -> bnd m b -> bnd m c ->
  exists n, num64 (advD dt b (lapD A a b c)) = Fin n /\ 0 <= advD dt b (lapD A a b c) < 2 ^ 64 /\ 2 ^ 53 * Z.abs n <= (2 ^ 53 + 32) * m.
Proof.
  intros RA Rd EA Ed Hal Hde Hk M1 M2 (va & Ea & Ra & La) (vb & Eb & Rb & Lb) (vc & Ec & Rc & Lc). unfold advD, lapD.
  pose proof U_pos as PU. pose proof dmax_U as PD. assert (HB : 1 <= 2 ^ 53) by (apply Z.leb_le; reflexivity). assert (HB2 : 2 ^ 20 <= 2 ^ 53) by (apply Z.leb_le; reflexivity).
  assert (DU : 2 ^ 100 * U * U <= double_max * U) by (apply Z.mul_le_mono_nonneg_r; [clear - PU; lia|exact PD]).
  assert (UU1 : U <= U * U) by (clear - PU; nia).
  destruct (of_whole_exact 2) as [E2 R2]; [split; [lia|reflexivity]|]. assert (R2' : 0 <= of_whole 2 < 2 ^ 64) by (split; [apply R2|apply (Z.lt_trans _ (2 ^ 63)); [apply R2|reflexivity]]).
  destruct (dmul_near (of_whole 2) b (2 * U) vb R2' Rb E2 Eb) as (t1 & Et & Rt & Nt).
  { assert (X : Z.abs (2 * U * vb) <= 2 * U * m) by (apply prod_le; [clear - PU; lia|exact Lb]). assert (Y : 2 * U * m <= 2 * U * (2 ^ 36 * U)) by (apply Z.mul_le_mono_nonneg_l; [clear - PU; lia|exact M2]).
    clear - X Y DU UU1 PU. lia. }
  apply scaled in Nt. assert (Lt : Z.abs t1 <= 2 * Z.abs (2 * vb) + 1) by (apply (near2 (2 ^ 53)); [exact HB|lia|]; clear - Nt; lia).
  assert (Lt' : Z.abs t1 <= 5 * m) by (clear - Lt Lb M1; lia). clear Lt.
  pose proof (fneg_num _ _ Rt Et) as En. unfold dsub.
  destruct (dadd_near a (fneg Double (dmul (of_whole 2) b)) va (- t1) Ea En) as (s1 & Es1 & Rs1 & Ns1 & _); [clear - La Lt' M2 PD PU; lia|].
  replace (va + - t1) with (va - t1) in Ns1 by ring. assert (Ls1 : Z.abs s1 <= 12 * m). { apply near1 in Ns1; [|exact HB]. clear - Ns1 La Lt'. lia. }
  destruct (dadd_near _ c s1 vc Es1 Ec) as (s & Es & Rs & Ns & _); [clear - Ls1 Lc M2 PD PU; lia|].
  assert (Ls : Z.abs s <= 26 * m). { pose proof Ns as X. apply near1 in X; [|exact HB]. clear - X Ls1 Lc. lia. }
  assert (Las : Z.abs (al * s) <= 2 ^ 50 * U * (2 ^ 41 * U)). { apply prod_le; [clear - Hal; lia|clear - Ls M2; lia]. }
  destruct (dmul_near A _ al s RA Rs EA Es) as (p & Ep & Rp & Np); [clear - Las DU UU1 PU; lia|].
  assert (Lp : Z.abs p <= 2 ^ 93 * U).
  { apply (Z.mul_le_mono_pos_r _ _ U PU). pose proof (near2 (2 ^ 53) (p * U) (al * s) U HB ltac:(clear - PU; lia) Np) as X. rewrite Z.abs_mul, (Z.abs_eq U) in X by (clear - PU; lia). clear - X Las UU1 PU. lia. }
  assert (Ldp : Z.abs (de * p) <= 4 * U * (2 ^ 93 * U)). { apply prod_le; [clear - Hde; lia|exact Lp]. }
  destruct (dmul_near dt _ de p Rd Rp Ed Ep) as (q & Eq & Rq & Nq); [clear - Ldp DU UU1 PU; lia|].
  assert (Lq : Z.abs q <= 2 ^ 97 * U).
  { apply (Z.mul_le_mono_pos_r _ _ U PU). pose proof (near2 (2 ^ 53) (q * U) (de * p) U HB ltac:(clear - PU; lia) Nq) as X. rewrite Z.abs_mul, (Z.abs_eq U) in X by (clear - PU; lia). clear - X Ldp UU1 PU. lia. }
  destruct (dadd_near b _ vb q Eb Eq) as (n & Enn & Rn & Nn & _); [clear - Lb Lq M2 PD PU; lia|].
  exists n. split; [exact Enn|]. split; [exact Rn|].
  exact (step_numbers (2 ^ 53) U (U * U) m al de va vb vc t1 s1 s p q n HB2 PU eq_refl M1 (proj1 Hal) Hde Hk La Lb Lc Nt Ns1 Ns Np Nq Nn).
Qed.

Lemma grow C j m x n : 0 <= j -> 2 * j < C -> 0 <= n -> x * (C - j) <= C * m -> C * n <= (C + 1) * x -> (C - (j + 1)) * n <= C * m.
Proof.
  intros Hj HC Hn Hx H. destruct (Z.le_gt_cases C (j + 1)) as [L|L]; [assert (0 <= C - (j + 1) + 1) by lia|].
  - assert (C = 1 /\ j = 0) by lia. destruct H1 as [-> ->]. nia.
  - assert (X0 : 0 <= x) by nia. apply (Z.mul_le_mono_pos_l _ _ C); [lia|].
    apply (Z.le_trans _ ((C - (j + 1)) * ((C + 1) * x))). { replace (C * ((C - (j + 1)) * n)) with ((C - (j + 1)) * (C * n)) by ring. apply Z.mul_le_mono_nonneg_l; lia. }
    apply (Z.le_trans _ (C * (x * (C - j)))); [|apply Z.mul_le_mono_nonneg_l; lia]. clear - X0 Hj. nia.
Qed.

Section Iter.
Variables (N A dt al de m : Z).
Hypothesis HN : 2 <= N.
Hypothesis RA : 0 <= A < 2 ^ 64.
Hypothesis Rd : 0 <= dt < 2 ^ 64.
Hypothesis EA : num64 A = Fin al.
Hypothesis Ed : num64 dt = Fin de.
Hypothesis Hal : 0 <= al <= 2 ^ 50 * U.
Hypothesis Hde : 0 <= de <= 4 * U.
Hypothesis Hk : 2 * (al * de) <= U * U.
Hypothesis M1 : 3 * 2 ^ 53 <= m.
Hypothesis M2 : m <= 2 ^ 35 * U.

Lemma iterD k (f : Z -> Z) : Z.of_nat k <= 2 ^ 47 -> (forall i, 0 <= i < N -> bnd m (f i)) ->
  forall i, 0 <= i < N -> exists x, num64 (Nat.iter k (heat_step N (lapD A) (advD dt)) f i) = Fin x /\
    0 <= Nat.iter k (heat_step N (lapD A) (advD dt)) f i < 2 ^ 64 /\ (2 ^ 48 - Z.of_nat k) * Z.abs x <= 2 ^ 48 * m.
Proof.
  intros Hkk H. induction k as [|k IH]; intros i Hi.
  - destruct (H i Hi) as (a & E & R & L). exists a. split; [exact E|]. split; [exact R|]. change (Z.of_nat 0) with 0. rewrite Z.sub_0_r. apply Z.mul_le_mono_nonneg_l; [discriminate|exact L].
  - rewrite Nat2Z.inj_succ in *. specialize (IH ltac:(clear - Hkk; lia)). cbn [Nat.iter nat_rect]. set (g := Nat.iter k (heat_step N (lapD A) (advD dt)) f) in *. change (nat_rect (fun _ => Z -> Z) f (fun _ => heat_step N (lapD A) (advD dt)) k) with g. clearbody g.
    set (j := Z.of_nat k) in *. assert (J0 : 0 <= j) by (unfold j; lia). clearbody j. set (x := 2 ^ 48 * m / (2 ^ 48 - j)).
    assert (C0 : 0 < 2 ^ 48 - j) by (clear - Hkk; lia).
    assert (X1 : x * (2 ^ 48 - j) <= 2 ^ 48 * m) by (rewrite Z.mul_comm; apply Z.mul_div_le; exact C0).
    assert (M0 : 0 <= m) by (clear - M1; lia).
    assert (X2 : m <= x) by (apply Z.div_le_lower_bound; [exact C0|]; clear - J0 M0; nia).
    assert (X3 : x <= 2 * m) by (apply Z.div_le_upper_bound; [exact C0|]; clear - Hkk M0; nia).
    assert (G : forall i, 0 <= i < N -> bnd x (g i)).
    { intros l Hl. destruct (IH l Hl) as (y & E & R & L). exists y. split; [exact E|]. split; [exact R|]. apply Z.div_le_lower_bound; [exact C0|exact L]. }
    assert (G' : forall j, -1 <= j <= N -> bnd x (ext N g j)).
    { intros l Hl. unfold ext. destruct (Z.ltb_spec l 0); [apply G; lia|]. destruct (Z.leb_spec N l); apply G; lia. }
    unfold heat_step. destruct (heatD_step A dt al de x (ext N g (i - 1)) (g i) (ext N g (i + 1)) RA Rd EA Ed Hal Hde Hk ltac:(clear - X2 M1; lia) ltac:(clear - X3 M2; lia) (G' (i - 1) ltac:(clear - Hi; lia)) (G i Hi) (G' (i + 1) ltac:(clear - Hi; lia))) as (n & En & Rn & Ln).
    exists n. split; [exact En|]. split; [exact Rn|]. apply (grow (2 ^ 48) j m x); [exact J0|clear - Hkk; lia|apply Z.abs_nonneg|exact X1|].
    change (2 ^ 53) with (32 * 2 ^ 48) in Ln. clear - Ln. lia.
Qed.
End Iter.

(** The constants of Example_D1_heat. *)
Lemma consts1 N : 2 <= N <= 2 ^ 23 -> exists al de, num64 (a_hh1 N) = Fin al /\ num64 (dt1 N) = Fin de /\ 0 <= a_hh1 N < 2 ^ 64 /\ 0 <= dt1 N < 2 ^ 64 /\
  0 <= al <= 2 ^ 50 * U /\ 0 <= de <= 4 * U /\ 2 * (al * de) <= U * U.
Proof.
  intros HN. change (2 ^ 23) with 8388608 in HN. unfold dt1, a_hh1, h1. rewrite (uwrap_small (N - 1)) by (unfold in_uint; lia).
  destruct (h_within (N - 1)) as (b & E & R & W); [split; [lia|apply (Z.le_trans _ 8388608); [lia|discriminate]]|].
  assert (B47 : 2 ^ 47 = 140737488355328) by reflexivity.
  destruct (step_within 2 62831852 (10000000 * (N - 1)) 3 (ddiv (dsub pi (fneg Double pi)) (of_whole (N - 1))) b ltac:(lia) ltac:(lia) ltac:(lia) ltac:(lia) ltac:(lia) ltac:(discriminate) R E W) as [(al & Ea & Ra & Wa) (de & Ed & Rd & Wd)].
  exists al, de. split; [exact Ea|]. split; [exact Ed|]. assert (B64 : 2 ^ 63 < 2 ^ 64) by reflexivity. split; [lia|]. split; [lia|]. clear B64 Ra Rd Ea Ed E R W B47.
  set (P := 62831852 * 62831852) in *. set (Q := 10000000 * (N - 1) * (10000000 * (N - 1))) in *. assert (Q1 : 100000000000000 <= Q <= 100000000000000 * (8388608 * 8388608)) by (unfold Q; nia).
  pose proof U_pos as PU.
  assert (P2 : 3900000000000000 <= P <= 3950000000000000) by (unfold P; lia). clearbody P Q.
  pose proof (within_nonneg _ al (2 * Q) P ltac:(lia) ltac:(lia) Wa) as A0. pose proof (within_nonneg _ de P (10 * (2 * Q)) ltac:(lia) ltac:(lia) Wd) as D0.
  apply within_half in Wa; [|discriminate|lia]. apply within_half in Wd; [|discriminate|lia].
  destruct Wa as [_ Wa]. destruct Wd as [_ Wd]. revert Wa Wd PU. generalize U. intros u Wa Wd PU. change (2 ^ 50) with 1125899906842624.
  assert (K1 : al * P <= 4 * (Q * u)) by lia. assert (K2 : 10 * (de * Q) <= P * u) by lia. clear Wa Wd.
  split; [split; [exact A0|]|]. { apply (Z.mul_le_mono_pos_r _ _ P); [lia|]. nia. }
  split; [split; [exact D0|]|]. { apply (Z.mul_le_mono_pos_r _ _ Q); [lia|]. nia. }
  apply (Z.mul_le_mono_pos_r _ _ (P * Q)); [nia|].
  assert (K3 : al * P * (10 * (de * Q)) <= 4 * (Q * u) * (P * u)) by (apply Z.mul_le_mono_nonneg; nia).
  replace (al * P * (10 * (de * Q))) with (10 * (al * de * (P * Q))) in K3 by ring. replace (4 * (Q * u) * (P * u)) with (4 * (u * u * (P * Q))) in K3 by ring.
  assert (Z0 : 0 <= u * u * (P * Q)) by nia. clear - K3 Z0. lia.
Qed.

Lemma few_passes N : 2 <= N <= 2 ^ 23 -> exists k, Z.of_nat k <= 2 ^ 47 /\ (1 <= k)%nat /\
  dge (flow_at (dt1 N) k) time_stop1 = true /\ (forall i, (1 <= i < k)%nat -> dge (flow_at (dt1 N) i) time_stop1 = false).
Proof.
  intros HN. change (2 ^ 23) with 8388608 in HN. destruct (dt1_within N) as (w & Ew & Ww); [change (2 ^ 30) with 1073741824; lia|].
  set (q := 10 * (2 * (10000000 * (N - 1) * (10000000 * (N - 1))))) in *. assert (Q0 : 2000000000000000 <= q <= 2000000000000000 * (8388608 * 8388608)) by (unfold q; nia). clearbody q.
  destruct (steps_exist 30 (dt1 N) time_stop1 w (62831852 * 62831852) q (2 ^ 1073) Ew stop1_num ltac:(lia) ltac:(lia) Ww) as (k & A & B & C & D & _).
  - reflexivity.
  - apply Z.leb_le. reflexivity.
  - change U with (2 * 2 ^ 1073). assert (P : 0 < 2 ^ 1073) by reflexivity. revert P. generalize (2 ^ 1073). change (2 ^ 50) with 1125899906842624. intros z P. nia.
  - apply Z.leb_le. reflexivity.
  - assert (1000000 <= 2 ^ 90) by (apply Z.leb_le; reflexivity). nia.
  - exists k. split; [|split; [exact (proj1 A)|auto]]. change U with (2 * 2 ^ 1073) in D. assert (P : 0 < 2 ^ 1073) by reflexivity. revert P D. generalize (2 ^ 1073). intros z P D.
    assert (K : (Z.of_nat k - 1) * (62831852 * 62831852) < q) by nia. change (2 ^ 47) with 140737488355328. clear - K Q0. lia.
Qed.
