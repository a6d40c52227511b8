(** Lemmas for C69: numbers printed, read and printed again. *)

From Coq Require Import ZArith Ascii String List Bool Lia.
From Verif Require Import Base M_Bytes M_TecZone M_TecFile Spec_Loop Spec_Tec Spec_Plt Spec_Aux Spec_Xml L_Base L_Loop L_TecZone L_TecMin L_Text L_Plt
  M_Scan L_Scan L_ScanF L_Near M_Print Spec_Print L_Print.
Import ListNotations.
Open Scope string_scope.

Open Scope Z_scope.

(** [v] is near [m * 10^(x - 6)]: the digits are those of [m]. *)
Lemma sci_pair_at v m x : 10 ^ 6 <= m < 10 ^ 7 -> 0 < v < 2 ^ 2098 ->
  2 * Z.abs (v * pw 10 (- (x - 6)) - m * (U * pw 10 (x - 6))) < U * pw 10 (x - 6) ->
  (m = 10 ^ 6 -> v * pw 10 (- (x - 6)) < m * (U * pw 10 (x - 6)) -> 20 * Z.abs (v * pw 10 (- (x - 6)) - m * (U * pw 10 (x - 6))) < U * pw 10 (x - 6)) ->
  sci_pair v = (m, x).
Proof.
  intros Hm Hv B2 B3. unfold sci_pair. destruct (v =? 0) eqn:E0; zcmp; [lia|]. cbv zeta. fold U.
  destruct (exponent_ok v Hv) as [L1 L2]. fold U in L1, L2.
  set (x0 := exp10 v U) in *. clearbody x0. rewrite round10.
  rewrite le10_pw in L1, L2. apply Z.nle_gt in L2. pose proof U_pos as HU.
  assert (SH : forall d, 0 <= d -> pw 10 (x - 6 + d) * pw 10 (- (x - 6)) = 10 ^ d * pw 10 (x - 6) * pw 10 (- (x - 6 + d))) by (intros; apply pw_add; lia).
  assert (P0 : forall e, 0 < pw 10 e) by (intros; apply pw_pos; lia).
  set (P := pw 10 (x - 6)) in *. set (N := pw 10 (- (x - 6))) in *.
  pose proof (P0 (x - 6)) as HP. fold P in HP. pose proof (P0 (- (x - 6))) as HN. fold N in HN.
  assert (UPp : 0 < U * P) by nia.
  change (10 ^ 6) with 1000000 in *. change (10 ^ 7) with 10000000 in *.
  assert (X1 : x0 <= x).
  { destruct (Z_le_gt_dec x0 x) as [|G]; [assumption|exfalso].
    pose proof (SH (x0 - (x - 6)) ltac:(lia)) as S. replace (x - 6 + (x0 - (x - 6))) with x0 in S by lia.
    assert (G2 : 10000000 <= 10 ^ (x0 - (x - 6))) by (apply (Z.pow_le_mono_r 10 7); lia).
    pose proof (P0 (- x0)) as HN0. set (N0 := pw 10 (- x0)) in *. set (p0 := pw 10 x0) in *. set (D := 10 ^ (x0 - (x - 6))) in *.
    assert (T : p0 * U * N <= v * N0 * N) by (apply Z.mul_le_mono_nonneg_r; lia).
    replace (p0 * U * N) with (p0 * N * U) in T by ring. rewrite S in T.
    assert (T2 : D * (U * P) <= v * N).
    { apply (Z.mul_le_mono_pos_r _ _ N0 HN0). replace (D * (U * P) * N0) with (D * P * N0 * U) by ring. replace (v * N * N0) with (v * N0 * N) by ring. exact T. }
    clear T S L1 L2 B3. revert T2 B2 G2 UPp Hm. generalize (U * P), (v * N). clear. intros y z T2 B2 G2 Hy Hm.
    assert (10000000 * y <= D * y) by nia. assert (m * y <= 9999999 * y) by nia. lia. }
  assert (X2 : x - 1 <= x0).
  { destruct (Z_le_gt_dec (x - 1) x0) as [|G]; [assumption|exfalso].
    (* v N < 10^5 U P *)
    pose proof (pw_add 10 (x0 + 1) (x - 1 - (x0 + 1)) ltac:(lia) ltac:(lia)) as S1. replace (x0 + 1 + (x - 1 - (x0 + 1))) with (x - 1) in S1 by lia.
    pose proof (SH 5 ltac:(lia)) as S2. replace (x - 6 + 5) with (x - 1) in S2 by lia. change (10 ^ 5) with 100000 in S2.
    assert (G2 : 1 <= 10 ^ (x - 1 - (x0 + 1))) by (apply (Z.pow_le_mono_r 10 0); lia).
    pose proof (P0 (x0 + 1)) as Hp1. pose proof (P0 (- (x0 + 1))) as Hn1. pose proof (P0 (x - 1)) as Hp4. pose proof (P0 (- (x - 1))) as Hn4.
    set (p1 := pw 10 (x0 + 1)) in *. set (n1 := pw 10 (- (x0 + 1))) in *. set (p4 := pw 10 (x - 1)) in *. set (n4 := pw 10 (- (x - 1))) in *.
    set (D := 10 ^ (x - 1 - (x0 + 1))) in *.
    assert (T : v * n4 < p4 * U).
    { apply (Z.mul_lt_mono_pos_r n1 _ _ Hn1). replace (p4 * U * n1) with (p4 * n1 * U) by ring. rewrite S1.
      replace (D * p1 * n4 * U) with (D * (p1 * U * n4)) by ring. replace (v * n4 * n1) with (v * n1 * n4) by ring.
      assert (v * n1 * n4 < p1 * U * n4) by (apply Z.mul_lt_mono_pos_r; lia). assert (0 < p1 * U * n4) by nia. nia. }
    assert (T2 : v * N < 100000 * (U * P)).
    { apply (Z.mul_lt_mono_pos_r n4 _ _ Hn4). replace (100000 * (U * P) * n4) with (100000 * P * n4 * U) by ring. rewrite <- S2.
      replace (v * N * n4) with (v * n4 * N) by ring. replace (p4 * N * U) with (p4 * U * N) by ring. apply Z.mul_lt_mono_pos_r; lia. }
    clear - T2 B2 UPp Hm. revert T2 B2 UPp Hm. generalize (U * P), (v * N). intros y z T2 B2 Hy Hm. assert (1000000 * y <= m * y) by nia. lia. }
  assert (C : x0 = x \/ x0 = x - 1) by lia. destruct C as [->|C].
  - fold P N. rewrite (round_div_at (v * N) (U * P) m) by (nia || lia). destruct (m =? 10000000) eqn:E; zcmp; [lia|reflexivity].
  - (* just below a power of ten *)
    subst x0. replace (x - 1 + 1) with x in * by lia.
    pose proof (SH 6 ltac:(lia)) as S2. replace (x - 6 + 6) with x in S2 by lia. change (10 ^ 6) with 1000000 in S2.
    pose proof (P0 x) as Hpx. pose proof (P0 (- x)) as Hnx. set (px := pw 10 x) in *. set (nx := pw 10 (- x)) in *.
    assert (T2 : v * N < 1000000 * (U * P)).
    { apply (Z.mul_lt_mono_pos_r nx _ _ Hnx). replace (1000000 * (U * P) * nx) with (1000000 * P * nx * U) by ring. rewrite <- S2.
      replace (v * N * nx) with (v * nx * N) by ring. replace (px * N * U) with (px * U * N) by ring. apply Z.mul_lt_mono_pos_r; lia. }
    assert (m = 1000000).
    { clear - T2 B2 UPp Hm. revert T2 B2 UPp Hm. generalize (U * P), (v * N). intros y z T2 B2 Hy Hm. nia. }
    subst m. specialize (B3 eq_refl T2). replace (x - 1 - 6) with (x - 7) by lia.
    pose proof (pw_add 10 (x - 7) 1 ltac:(lia) ltac:(lia)) as S1. replace (x - 7 + 1) with (x - 6) in S1 by lia. fold P N in S1. change (10 ^ 1) with 10 in S1.
    pose proof (P0 (x - 7)) as Hp6. pose proof (P0 (- (x - 7))) as Hn6. set (p6 := pw 10 (x - 7)) in *. set (n6 := pw 10 (- (x - 7))) in *.
    rewrite (round_div_at (v * n6) (U * p6) 10000000).
    + reflexivity.
    + nia.
    + nia.
    + (* times N: P n6 = 10 p6 N *)
      apply (Z.mul_lt_mono_pos_r (10 * N)); [lia|].
      replace (U * p6 * (10 * N)) with (U * (10 * p6 * N)) by ring. rewrite <- S1.
      replace (2 * Z.abs (v * n6 - 10000000 * (U * p6)) * (10 * N)) with (20 * Z.abs (v * N - 1000000 * (U * P)) * n6).
      * replace (U * (P * n6)) with (U * P * n6) by ring. apply Z.mul_lt_mono_pos_r; assumption.
      * replace (2 * Z.abs (v * n6 - 10000000 * (U * p6)) * (10 * N)) with (20 * (Z.abs (v * n6 - 10000000 * (U * p6)) * N)) by ring.
        rewrite <- Z.mul_assoc. f_equal. rewrite <- (Z.abs_eq n6) at 1 by lia. rewrite <- (Z.abs_eq N) at 2 by lia. rewrite <- !Z.abs_mul. f_equal.
        rewrite !Z.mul_sub_distr_r. f_equal; [ring|]. replace (1000000 * (U * P) * n6) with (1000000 * U * (P * n6)) by ring. rewrite S1. ring.
Qed.

(** The first digit is not zero; the error is at most half a unit of the last digit. *)
Lemma sci_half v m e : 0 < v < 2 ^ 2098 -> sci_pair v = (m, e) ->
  10 ^ 6 <= m < 10 ^ 7 /\ 2 * Z.abs (v * pw 10 (- (e - 6)) - m * (U * pw 10 (e - 6))) <= U * pw 10 (e - 6).
Proof.
  intros Hv E. unfold sci_pair in E. destruct (v =? 0) eqn:E0; zcmp; [lia|]. cbv zeta in E. fold U in E.
  destruct (exponent_ok v Hv) as [L1 L2]. fold U in L1, L2. set (x0 := exp10 v U) in *. clearbody x0. rewrite round10 in E. rewrite le10_pw in L1, L2. apply Z.nle_gt in L2.
  pose proof U_pos as HU.
  assert (P0 : forall e, 0 < pw 10 e) by (intros; apply pw_pos; lia).
  pose proof (P0 (- (x0 - 6))) as HN. pose proof (P0 (x0 - 6)) as HP. pose proof (P0 (- x0)) as HN0. pose proof (P0 (- (x0 + 1))) as HN1.
  assert (HX : 0 <= v * pw 10 (- (x0 - 6))) by (apply Z.mul_nonneg_nonneg; lia). assert (HY : 0 < U * pw 10 (x0 - 6)) by (apply Z.mul_pos_pos; assumption).
  assert (LO : 10 ^ 6 <= round_div (v * pw 10 (- (x0 - 6))) (U * pw 10 (x0 - 6))).
  { apply round_div_low; [assumption|assumption|].
    pose proof (pw_add 10 (x0 - 6) 6 ltac:(lia) ltac:(lia)) as S. replace (x0 - 6 + 6) with x0 in S by lia.
    apply (Z.mul_le_mono_pos_r _ _ (pw 10 (- x0)) HN0).
    replace (10 ^ 6 * (U * pw 10 (x0 - 6)) * pw 10 (- x0)) with (10 ^ 6 * pw 10 (x0 - 6) * pw 10 (- x0) * U) by ring. rewrite <- S.
    replace (v * pw 10 (- (x0 - 6)) * pw 10 (- x0)) with (v * pw 10 (- x0) * pw 10 (- (x0 - 6))) by ring.
    replace (pw 10 x0 * pw 10 (- (x0 - 6)) * U) with (pw 10 x0 * U * pw 10 (- (x0 - 6))) by ring. apply Z.mul_le_mono_nonneg_r; lia. }
  assert (UPB : round_div (v * pw 10 (- (x0 - 6))) (U * pw 10 (x0 - 6)) <= 10 ^ 7).
  { apply round_div_up; [assumption|assumption|].
    pose proof (pw_add 10 (x0 - 6) 7 ltac:(lia) ltac:(lia)) as S. replace (x0 - 6 + 7) with (x0 + 1) in S by lia.
    apply (Z.mul_le_mono_pos_r _ _ (pw 10 (- (x0 + 1))) HN1).
    replace (10 ^ 7 * (U * pw 10 (x0 - 6)) * pw 10 (- (x0 + 1))) with (10 ^ 7 * pw 10 (x0 - 6) * pw 10 (- (x0 + 1)) * U) by ring. rewrite <- S.
    replace (v * pw 10 (- (x0 - 6)) * pw 10 (- (x0 + 1))) with (v * pw 10 (- (x0 + 1)) * pw 10 (- (x0 - 6))) by ring.
    replace (pw 10 (x0 + 1) * pw 10 (- (x0 - 6)) * U) with (pw 10 (x0 + 1) * U * pw 10 (- (x0 - 6))) by ring. apply Z.mul_le_mono_nonneg_r; lia. }
  destruct (round_div_spec _ _ HX HY) as [_ ER].
  set (r := round_div (v * pw 10 (- (x0 - 6))) (U * pw 10 (x0 - 6))) in *. clearbody r.
  destruct (r =? 10 ^ 7) eqn:E7; zcmp.
  - injection E as <- <-. split; [split; [apply Z.le_refl|reflexivity]|]. replace (x0 + 1 - 6) with (x0 - 6 + 1) by lia.
    pose proof (pw_add 10 (x0 - 6) 1 ltac:(lia) ltac:(lia)) as S. change (10 ^ 1) with 10 in S.
    pose proof (P0 (- (x0 - 6 + 1))) as HN2. pose proof (P0 (x0 - 6 + 1)) as HP2.
    set (P := pw 10 (x0 - 6)) in *. set (N := pw 10 (- (x0 - 6))) in *. set (P2 := pw 10 (x0 - 6 + 1)) in *. set (N2 := pw 10 (- (x0 - 6 + 1))) in *.
    change (Z.pow_pos 10 6) with 1000000 in *. change (10 ^ 6) with 1000000 in *. change (10 ^ 7) with 10000000 in *.
    (* P2 N = 10 P N2 *)
    assert (AM : forall a c, 0 < c -> Z.abs a * c = Z.abs (a * c)) by (intros a c Hc; rewrite Z.abs_mul, (Z.abs_eq c) by lia; reflexivity).
    assert (EA : Z.abs (v * N2 - 1000000 * (U * P2)) * N = Z.abs (v * N - 10000000 * (U * P)) * N2).
    { rewrite (AM _ _ HN), (AM _ _ HN2). f_equal. rewrite !Z.mul_sub_distr_r. f_equal; [ring|].
      replace (1000000 * (U * P2) * N) with (1000000 * U * (P2 * N)) by ring. rewrite S. ring. }
    assert (EB : U * P2 * N = 10 * (U * P) * N2) by (replace (U * P2 * N) with (U * (P2 * N)) by ring; rewrite S; ring).
    apply (Z.mul_le_mono_pos_r _ _ N HN). rewrite EB. subst r.
    replace (2 * Z.abs (v * N2 - 1000000 * (U * P2)) * N) with (2 * (Z.abs (v * N2 - 1000000 * (U * P2)) * N)) by ring. rewrite EA.
    assert (ER' : 2 * Z.abs (v * N - 10000000 * (U * P)) <= U * P) by lia.
    revert ER' HY HN2. generalize (Z.abs (v * N - 10000000 * (U * P))), (U * P). clear. intros. nia.
  - injection E as <- <-. split; [lia|]. lia.
Qed.

Lemma round_f64_small a b : 0 < a -> 0 < b -> a * U < 2 ^ 53 * b ->
  round_f64 a b = round_div (a * U) b /\ num64 (round_f64 a b) = Fin (round_div (a * U) b).
Proof.
  intros Ha Hb H. pose proof U_pos as HU.
  assert (E : round_f64 a b = round_div (a * U) b).
  { unfold round_f64. destruct (a =? 0) eqn:E0; zcmp; [lia|]. destruct (exp2_spec a b Ha Hb) as [F1 _]. cbv zeta in F1. cbv zeta.
    set (e := if _ <? _ then _ else _) in *. clearbody e.
    assert (He : e <= -1022).
    { destruct (Z_le_gt_dec e (-1022)) as [|G]; [assumption|exfalso].
      assert (b * 2 ^ 53 <= a * U).
      { unfold pw in F1. destruct (Z_le_gt_dec 0 e).
        - rewrite (Z.max_l 0 (- e)), (Z.max_r 0 e) in F1 by lia. change (2 ^ 0) with 1 in F1. assert (1 <= 2 ^ e) by (apply (Z.pow_le_mono_r 2 0); lia).
          assert (2 ^ 53 <= U) by (apply (Z.pow_le_mono_r 2 53 1074); lia). assert (b <= a) by nia. apply Z.mul_le_mono_nonneg; lia.
        - rewrite (Z.max_r 0 (- e)), (Z.max_l 0 e) in F1 by lia. change (2 ^ 0) with 1 in F1. assert (2 ^ (- e) <= 2 ^ 1021) by (apply Z.pow_le_mono_r; lia).
          unfold U. change 1074 with (1021 + 53). rewrite Z.pow_add_r by lia. rewrite Z.mul_assoc. apply Z.mul_le_mono_nonneg_r; [lia|].
          rewrite Z.mul_1_r in F1. eapply Z.le_trans; [exact F1|]. apply Z.mul_le_mono_nonneg_l; [lia|assumption]. }
      lia. }
    rewrite (Z.max_r (e - 52) (-1074)) by lia. rewrite (Z.max_l 0 (-1074)) by lia. change (Z.max 0 (- -1074)) with 1074. change (2 ^ 0) with 1.
    change (-1074 + 1074) with 0. rewrite Z.mul_0_l, Z.add_0_l, Z.mul_1_r. fold U. apply Z.min_l.
    apply Z.le_trans with (2 ^ 53); [|apply Z.leb_le; reflexivity]. apply round_div_up; [nia|assumption|lia]. }
  split; [exact E|]. rewrite E.
  assert (R0 : 0 <= round_div (a * U) b) by (apply (round_div_spec (a * U) b); nia).
  assert (R1 : round_div (a * U) b <= 2 ^ 53) by (apply round_div_up; [nia|assumption|lia]).
  pose proof (num64_bits 0 (round_div (a * U) b) ltac:(lia) (or_introl (conj eq_refl R0)) R1) as HB. rewrite Z.mul_0_l, Z.add_0_l in HB. rewrite HB.
  - change (2 ^ 0) with 1. rewrite Z.mul_1_r. reflexivity.
  - apply Z.le_lt_trans with (2 ^ 53); [assumption|reflexivity].
Qed.

Lemma consts_sub : 2 * U < 10 ^ 324 /\ 2 * 10 ^ 323 < U /\ 20 * 10 ^ 322 < U /\
  10 ^ 323 * round_div (10 ^ 6 * U) (10 ^ 323) >= 10 ^ 6 * U /\ DMAX * U < 2 ^ 2098.
Proof.
  split; [apply Z.ltb_lt; vm_compute; reflexivity|]. split; [apply Z.ltb_lt; vm_compute; reflexivity|]. split; [apply Z.ltb_lt; vm_compute; reflexivity|].
  split; [apply Z.le_ge, Z.leb_le; vm_compute; reflexivity|apply Z.ltb_lt; vm_compute; reflexivity].
Qed.

Lemma sci_again v m e w : 0 < v <= DMAX * U -> sci_pair v = (m, e) -> num64 (dec_value m 6 e) = Fin w -> sci_pair w = (m, e).
Proof.
  intros [Hv HM] E Hw. destruct consts_sub as (C1 & C2 & C3 & C4 & C5). pose proof U_pos as HU.
  assert (HB : 0 < v < 2 ^ 2098) by (exact (conj Hv (Z.le_lt_trans _ _ _ HM C5))).
  destruct (sci_half v m e HB E) as [Bm ER]. destruct (sci_spec v m e (conj Hv HM) E) as (_ & _ & OV & _).
  pose proof (num64_bound _ _ Hw) as WB. unfold dec_value in Hw. change (Z.of_nat 6) with 6 in Hw.
  assert (HP : 0 < pw 10 (e - 6)) by (apply pw_pos; lia). assert (HN : 0 < pw 10 (- (e - 6))) by (apply pw_pos; lia).
  assert (BN1 : e <= -318 -> 10 ^ 324 <= pw 10 (- (e - 6))) by (intros; unfold pw; apply Z.pow_le_mono_r; lia).
  assert (BP1 : e <= -318 -> pw 10 (e - 6) = 1) by (intros; apply pw_neg; lia).
  assert (BN2 : -317 <= e -> pw 10 (- (e - 6)) <= 10 ^ 323) by (intros; unfold pw; apply Z.pow_le_mono_r; lia).
  assert (BN3 : -316 <= e -> pw 10 (- (e - 6)) <= 10 ^ 322) by (intros; unfold pw; apply Z.pow_le_mono_r; lia).
  assert (B0 : e = -317 -> pw 10 (- (e - 6)) = 10 ^ 323 /\ pw 10 (e - 6) = 1) by (intros ->; split; reflexivity).
  assert (W0 : 0 < w -> 2 * Z.abs (w * pw 10 (- (e - 6)) - m * (U * pw 10 (e - 6))) < U * pw 10 (e - 6) ->
    (m = 10 ^ 6 -> w * pw 10 (- (e - 6)) < m * (U * pw 10 (e - 6)) -> 20 * Z.abs (w * pw 10 (- (e - 6)) - m * (U * pw 10 (e - 6))) < U * pw 10 (e - 6)) ->
    sci_pair w = (m, e)).
  { intros H1 H2 H3. apply sci_pair_at; try assumption. split; [assumption|]. lia. }
  set (P := pw 10 (e - 6)) in *. set (N := pw 10 (- (e - 6))) in *. clearbody P N.
  change (10 ^ 6) with 1000000 in *. change (10 ^ 7) with 10000000 in *.
  set (q4 := 10 ^ 324) in *. set (q3 := 10 ^ 323) in *. set (q2 := 10 ^ 322) in *. set (Z0 := 2 ^ 2098) in *. set (D := DMAX) in *. set (u := U) in *.
  assert (EQ : u = U) by reflexivity. assert (EQ3 : q3 = 10 ^ 323) by reflexivity. assert (ED : D = DMAX) by reflexivity.
  clearbody q4 q3 q2 Z0 D. 
  assert (HUP : u <= u * P) by (clear - HU HP; nia). assert (HMU : 1000000 * (u * P) <= m * (u * P)) by (clear - HU HP Bm; nia).
  assert (HMV : v * N <= 2 * (m * (u * P))) by (clear - HMU ER HU HP; lia).
  destruct (Z_lt_ge_dec v (2 ^ 52)) as [SUB|NORM].
  - (* a subnormal number *)
    assert (SM : m * P * u < 2 ^ 53 * N).
    { change (2 ^ 52) with 4503599627370496 in SUB. change (2 ^ 53) with 9007199254740992. assert (v * N <= 4503599627370496 * N) by (clear - SUB HN; nia).
      replace (m * P * u) with (m * (u * P)) by ring. clear - H ER HMU HN HU HP HUP. lia. }
    assert (HMP : 0 < m * P) by (clear - Bm HP; nia).
    destruct (round_f64_small (m * P) N HMP HN SM) as [_ R]. rewrite R in Hw. apply Fin_inj in Hw. fold u in Hw.
    destruct (round_div_spec (m * P * u) N ltac:(clear - HMP HU; nia) HN) as [R0 RS]. fold u in R0, RS. rewrite Hw in R0, RS.
    replace (m * P * u) with (m * (u * P)) in RS by ring.
    destruct (Z_le_gt_dec e (-318)) as [LOW|HIGH].
    + (* the digits are finer than the numbers *)
      specialize (BN1 LOW). specialize (BP1 LOW). subst P. rewrite Z.mul_1_r in *.
      assert (EW : w = v). { clear - ER RS BN1 C1 HN HU. assert (H : 2 * Z.abs (w * N - v * N) < 2 * N) by lia. rewrite <- Z.mul_sub_distr_r, Z.abs_mul, (Z.abs_eq N) in H by lia. nia. }
      rewrite EW. exact E.
    + (* the numbers are finer *)
      assert (He : -317 <= e) by (clear - HIGH; lia). specialize (BN2 He).
      assert (RS' : 2 * Z.abs (w * N - m * (u * P)) <= N) by (clear - RS; lia).
      apply W0.
      * destruct (Z.eq_dec w 0) as [->|]; [exfalso|clear - R0 n; lia]. clear - RS' BN2 C2 HMU HUP HU. rewrite Z.mul_0_l in RS'. lia.
      * clear - RS' BN2 C2 HUP. lia.
      * intros Em LT. destruct (Z.eq_dec e (-317)) as [E7|E7].
        -- exfalso. destruct (B0 E7) as [-> ->]. subst m. rewrite Z.mul_1_r in *. rewrite <- Hw in LT.
           assert (C4' : q3 * round_div (1000000 * u) q3 >= 1000000 * u) by exact C4. replace (1000000 * 1 * u) with (1000000 * u) in LT by ring.
           clear - LT C4'. lia.
        -- assert (He2 : -316 <= e) by (clear - He E7; lia). specialize (BN3 He2). clear - RS' BN3 C3 HUP. lia.
  - (* a normal one *)
    destruct (round_f64_spec (m * P) N ltac:(clear - Bm HP; nia) HN) as (w' & W1 & W2 & W3 & W4); [rewrite <- ED; exact OV|].
    rewrite W1 in Hw. apply Fin_inj in Hw. subst w'. fold u in W4. replace (m * P * u) with (m * (u * P)) in W4 by ring.
    change (2 ^ 53) with 9007199254740992 in W4. change (2 ^ 52) with 4503599627370496 in W4, NORM.
    assert (HNV : N * 4503599627370496 <= v * N) by (clear - NORM HN; nia).
    assert (HM7 : m * (u * P) <= 10000000 * (u * P)) by (clear - Bm HU HP; nia).
    assert (ERR : 100 * Z.abs (w * N - m * (u * P)) < u * P) by (clear - W4 HNV HM7 HMV HU HP HUP; lia).
    apply W0.
    + destruct (Z.eq_dec w 0) as [->|]; [exfalso|clear - W2 n; lia]. rewrite Z.mul_0_l in ERR. clear - ERR HMU HUP HU. lia.
    + clear - ERR HUP HU. lia.
    + intros _ _. clear - ERR HUP HU. lia.
Qed.

(** ** Texts *)

Lemma with_sign_signed (f : Z -> string) (neg : bool) r w : 0 <= r < 2 ^ 63 -> num64 r = Fin w -> 0 <= w -> with_sign (sgz neg + r) f = (sg neg ++ f w)%string.
Proof.
  intros Hr Hw H0. unfold with_sign. destruct neg; cbn [sgz sg].
  - rewrite (num64_neg _ _ Hr Hw). rewrite Z.abs_opp, Z.abs_eq by assumption.
    assert (E : (2 ^ 63 + r) / 2 ^ 63 = 1) by (revert Hr; generalize (2 ^ 63); clear; intros q Hq; symmetry; apply (Z.div_unique _ _ _ r); lia).
    rewrite E. reflexivity.
  - rewrite Z.add_0_l, Hw, (Z.div_small r) by assumption. rewrite Z.abs_eq by assumption. reflexivity.
Qed.
Lemma special_again f b y t : num64 b = t -> (forall v, t <> Fin v) -> scan_double (with_sign b f) = Some y -> with_sign y f = with_sign b f.
Proof.
  intros E H HS. unfold with_sign in HS. unfold with_sign at 2. rewrite E in *.
  assert (S : match t with MInf => b / 2 ^ 63 mod 2 =? 0 = false | PInf => b / 2 ^ 63 mod 2 =? 0 = true | _ => True end).
  { subst t. unfold num64, fnum in *. cbv zeta in *. change (11 + 52) with 63 in *.
    destruct (_ =? 2 ^ 11 - 1); [|exact I]. destruct (_ =? 0) in |- * at 1; [|exact I].
    destruct (b / 2 ^ 63 mod 2 =? 0); reflexivity. }
  destruct t; [|rewrite S in *|exfalso; eapply H; reflexivity|rewrite S in *].
  - destruct (b / 2 ^ 63 mod 2 =? 0); vm_compute in HS; injection HS as <-; reflexivity.
  - vm_compute in HS; injection HS as <-; reflexivity.
  - vm_compute in HS; injection HS as <-; reflexivity.
Qed.

Theorem le_again b y : scan_double (fmt_le b) = Some y -> fmt_le y = fmt_le b.
Proof.
  unfold fmt_le. destruct (num64 b) as [| |v|] eqn:E.
  1, 2, 4: intros H; eapply special_again; [exact E|discriminate|exact H].
  intros H. unfold with_sign at 2. unfold with_sign in H. rewrite E, sg_scan in *.
  pose proof (num64_bound b v E) as HB. rewrite fmt_sci_pair in H. rewrite fmt_sci_pair. destruct (sci_pair (Z.abs v)) as [m e] eqn:EP.
  destruct (Z.eq_dec v 0) as [->|Hv].
  { change (sci_pair (Z.abs 0)) with (0, 0) in EP. injection EP as <- <-. destruct (negb (b / 2 ^ 63 mod 2 =? 0)); vm_compute in H; injection H as <-; reflexivity. }
  assert (HV : 0 < Z.abs v <= DMAX * U) by (clear - HB Hv; split; [lia|exact HB]).
  destruct (sci_spec (Z.abs v) m e HV EP) as (M & He & OV & _).
  destruct (scan_sci m e M He) as [FD SC]. cbv zeta in FD, SC, H. cbv zeta. rewrite scan_signed, SC in H by exact FD. injection H as <-.
  assert (HN : 0 < pw 10 (- (e - 6))) by (apply pw_pos; lia). assert (HP : 0 < pw 10 (e - 6)) by (apply pw_pos; lia).
  destruct (round_f64_spec (m * pw 10 (e - 6)) (pw 10 (- (e - 6))) ltac:(clear - M HP; nia) HN OV) as (w & W1 & W2 & W3 & _).
  assert (W1' : num64 (dec_value m 6 e) = Fin w) by exact W1. assert (W3' : 0 <= dec_value m 6 e < 2 ^ 63) by exact W3.
  rewrite (with_sign_signed _ _ _ w W3' W1' W2). f_equal. rewrite fmt_sci_pair, (sci_again _ _ _ _ HV EP W1'). reflexivity.
Qed.

Lemma fmt_fixed_eq p v u : fmt_fixed p v u =
  show 400 (round_div (v * 10 ^ Z.of_nat p) u / 10 ^ Z.of_nat p) ++ "." ++ show_pad p (round_div (v * 10 ^ Z.of_nat p) u mod 10 ^ Z.of_nat p).
Proof. reflexivity. Qed.

(** The same for [%.5lf] and numbers below 2^35. *)
Lemma lf_again_p p b y : p = 5%nat -> (forall v, num64 b = Fin v -> Z.abs v < 2 ^ 35 * 2 ^ 1074) -> scan_double (fmt_lf p b) = Some y -> fmt_lf p y = fmt_lf p b.
Proof.
  intros Hp HS. unfold fmt_lf. destruct (num64 b) as [| |v|] eqn:E.
  1, 2, 4: intros H; eapply special_again; [exact E|discriminate|exact H].
  specialize (HS v eq_refl). fold U in HS. fold U. intros H. unfold with_sign at 2. unfold with_sign in H. rewrite E, sg_scan in *.
  pose proof U_pos as HU. rewrite fmt_fixed_eq in H |- *. set (T := 10 ^ Z.of_nat p) in *. assert (ET : T = 100000) by (unfold T; rewrite Hp; reflexivity).
  assert (HT7 : 32 * T <= U) by (rewrite ET; apply Z.leb_le; vm_compute; reflexivity).
  destruct (round_div_spec (Z.abs v * T) U ltac:(clear - ET; nia) HU) as [N0 NS].
  set (n := round_div (Z.abs v * T) U) in *.
  assert (NM : n <= 2 ^ 52 - 2 ^ 49).
  { change (2 ^ 52 - 2 ^ 49) with 3940649673949184. apply round_div_up'; [clear - ET; nia|assumption|]. change (2 ^ 35) with 34359738368 in HS. clear - HS ET HU. nia. }
  assert (ND : n <= DMAX * T).
  { apply Z.le_trans with (2 ^ 52 - 2 ^ 49); [exact NM|]. rewrite ET. apply Z.leb_le. vm_compute. reflexivity. }
  assert (NQ : n / T < 10 ^ Z.of_nat 400).
  { apply Z.div_lt_upper_bound; [lia|]. apply Z.le_lt_trans with (2 ^ 52 - 2 ^ 49); [exact NM|]. rewrite ET. apply Z.ltb_lt. vm_compute. reflexivity. }
  clearbody n. destruct (scan_fixed 399 p n ltac:(lia) N0 NQ) as [FD SC]. cbv zeta in FD, SC. fold T in FD, SC. rewrite scan_signed, SC in H by exact FD. injection H as <-.
  assert (HT : 0 < T) by (clear - ET; lia).
  destruct (round_f64_spec n T N0 HT ND) as (w & W1 & W2 & W3 & W4).
  assert (ED : dec_value n p 0 = round_f64 n T).
  { unfold dec_value. rewrite pw_neg, pw_nonneg by lia. rewrite Z.mul_1_r. f_equal. unfold T. f_equal. lia. }
  rewrite <- ED in W1, W3. rewrite (with_sign_signed _ _ _ w W3 W1 W2). f_equal. rewrite fmt_fixed_eq. fold T.
  rewrite (round_div_at (w * T) U n); [reflexivity|clear - W2 HT; nia|exact HU|].
  change (2 ^ 53) with 9007199254740992 in W4. change (2 ^ 52) with 4503599627370496 in W4, NM. change (2 ^ 49) with 562949953421312 in NM.
  assert (T * 4503599627370496 <= 281474976710656 * U) by (clear - HT7; lia).
  assert (n * U <= 3940649673949184 * U) by (clear - NM HU; nia). assert (n * U < 3940649673949185 * U) by (clear - H0 HU; lia).
  clear - W4 H H1 HU. lia.
Qed.

Theorem lf_again b y : (forall v, num64 b = Fin v -> Z.abs v < 2 ^ 35 * 2 ^ 1074) -> scan_double (fmt_lf 5 b) = Some y -> fmt_lf 5 y = fmt_lf 5 b.
Proof. exact (lf_again_p 5 b y eq_refl). Qed.
