(** Reading what [%le] and [%lf] printed. *)

From Coq Require Import ZArith Ascii String List Bool Lia.
From Verif Require Import Base M_Bytes M_Scan L_Base L_Text L_TecMin L_Plt L_Scan L_ScanF Spec_Xml.
Import ListNotations.
Open Scope string_scope.
Open Scope Z_scope.

(** The sign in front and behind. *)
Lemma signed_scan (R : Z -> Z -> Prop) (neg : bool) s v bits w :
  first_digit s -> scan_double s = Some bits -> num64 bits = Fin w -> 0 <= bits < 2 ^ 63 ->
  0 <= v -> R v w -> (forall a b, R a b -> R (- a) (- b)) ->
  exists y w', scan_double (sg neg ++ s) = Some y /\ num64 y = Fin w' /\ R (if neg then - v else v) w'.
Proof.
  intros Hs Hsc Hw Hb Hv HR Hopp. rewrite scan_signed, Hsc by assumption. destruct neg; cbn [sgz].
  - exists (2 ^ 63 + bits), (- w). split; [reflexivity|]. split; [now apply num64_neg|auto].
  - exists bits, w. auto.
Qed.

Lemma sg_scan b : (if b / 2 ^ 63 mod 2 =? 0 then "" else "-") = sg (negb (b / 2 ^ 63 mod 2 =? 0)).
Proof. destruct (_ =? 0); reflexivity. Qed.

(** Special values. *)
Lemma special_scan f b t : num64 b = t -> (forall v, t <> Fin v) ->
  exists y, scan_double (with_sign b f) = Some y /\ num64 y = t.
Proof.
  intros E H. unfold with_sign. rewrite E.
  assert (S : match t with MInf => b / 2 ^ 63 mod 2 =? 0 = false | PInf => b / 2 ^ 63 mod 2 =? 0 = true | _ => True end).
  { subst t. unfold num64, fnum in *. cbv zeta in *. change (11 + 52) with 63 in *.
    destruct (_ =? 2 ^ 11 - 1); [|exact I]. destruct (_ =? 0) in |- * at 1; [|exact I].
    destruct (b / 2 ^ 63 mod 2 =? 0); reflexivity. }
  destruct t; [|rewrite S|exfalso; eapply H; reflexivity|rewrite S].
  - destruct (_ =? 0); eexists; (split; [vm_compute; reflexivity|vm_compute; reflexivity]).
  - eexists; (split; [vm_compute; reflexivity|vm_compute; reflexivity]).
  - eexists; (split; [vm_compute; reflexivity|vm_compute; reflexivity]).
Qed.

(** ** [%le] *)

(** The digits and the exponent. *)
Definition sci_pair (v : Z) : Z * Z :=
  if v =? 0 then (0, 0) else
  let b := 2 ^ 1074 in
  let e := exp10 v b in
  let m := if 0 <=? 6 - e then round_div (v * 10 ^ (6 - e)) b else round_div v (b * 10 ^ (e - 6)) in
  if m =? 10 ^ 7 then (10 ^ 6, e + 1) else (m, e).
Lemma fmt_sci_pair v : fmt_sci v =
  let '(m, e) := sci_pair v in
  let ae := Z.abs e in
  String (digit (m / 10 ^ 6 mod 10)) ("." ++ show_pad 6 (m mod 10 ^ 6) ++ "e" ++
    (if e <? 0 then "-" else "+") ++ (if ae <? 100 then show_pad 2 ae else show_pad 3 ae)).
Proof. reflexivity. Qed.

Lemma pw_neg e : e <= 0 -> pw 10 e = 1.
Proof. intros. unfold pw. rewrite Z.max_l by lia. reflexivity. Qed.
Lemma pw_nonneg e : 0 <= e -> pw 10 e = 10 ^ e.
Proof. intros. unfold pw. rewrite Z.max_r by lia. reflexivity. Qed.

(** [10^e <= v / U] *)
Lemma le10_pw e v b : le10 e v b <-> pw 10 e * b <= v * pw 10 (- e).
Proof.
  unfold le10. destruct (0 <=? e) eqn:E; zcmp.
  - rewrite pw_nonneg, (pw_neg (- e)) by lia. rewrite Z.mul_1_r. reflexivity.
  - rewrite pw_neg, (pw_nonneg (- e)) by lia. rewrite Z.mul_1_l. reflexivity.
Qed.

Lemma round10 v e : (if 0 <=? 6 - e then round_div (v * 10 ^ (6 - e)) U else round_div v (U * 10 ^ (e - 6)))
  = round_div (v * pw 10 (- (e - 6))) (U * pw 10 (e - 6)).
Proof.
  destruct (0 <=? 6 - e) eqn:E; zcmp.
  - rewrite (pw_neg (e - 6)), (pw_nonneg (- (e - 6))) by lia. rewrite Z.mul_1_r. replace (- (e - 6)) with (6 - e) by lia. reflexivity.
  - rewrite (pw_nonneg (e - 6)), (pw_neg (- (e - 6))) by lia. rewrite Z.mul_1_r. reflexivity.
Qed.

Lemma sci_spec v m e : 0 < v <= DMAX * U -> sci_pair v = (m, e) ->
  0 <= m < 10 ^ 7 /\ Z.abs e < 1000 /\ m * pw 10 (e - 6) <= DMAX * pw 10 (- (e - 6)) /\
  2 * 10 ^ 6 * Z.abs (m * pw 10 (e - 6) * U - v * pw 10 (- (e - 6))) <= v * pw 10 (- (e - 6)).
Proof.
  intros [Hv HM] E. unfold sci_pair in E. destruct (v =? 0) eqn:E0; zcmp; [lia|]. cbv zeta in E. fold U in E.
  assert (HB : v < 2 ^ 2098).
  { eapply Z.le_lt_trans; [exact HM|]. apply Z.ltb_lt. vm_compute. reflexivity. }
  destruct (exponent_ok v (conj Hv HB)) as [L1 L2]. fold U in L1, L2. clear HB.
  set (x := exp10 v U) in *. clearbody x. rewrite round10 in E.
  rewrite le10_pw in L1, L2. apply Z.nle_gt in L2. pose proof U_pos as HU.
  (* range of x *)
  assert (X2 : x <= 308).
  { destruct (Z_le_gt_dec x 308); [assumption|exfalso]. rewrite (pw_nonneg x), (pw_neg (- x)) in L1 by lia.
    assert (G : 10 ^ 309 <= 10 ^ x) by (apply Z.pow_le_mono_r; lia).
    assert (G2 : DMAX < 10 ^ 309) by (apply Z.ltb_lt; vm_compute; reflexivity).
    revert L1 HM G G2 HU. generalize (10 ^ 309), (10 ^ x), DMAX, U. clear. intros. nia. }
  assert (X1 : -324 <= x).
  { destruct (Z_le_gt_dec (-324) x); [assumption|exfalso]. rewrite (pw_neg (x + 1)), (pw_nonneg (- (x + 1))) in L2 by lia.
    assert (G : 10 ^ 324 <= 10 ^ (- (x + 1))) by (apply Z.pow_le_mono_r; lia).
    assert (G2 : U <= 10 ^ 324) by (apply Z.leb_le; vm_compute; reflexivity).
    revert L2 G G2 HU Hv. generalize (10 ^ 324), (10 ^ (- (x + 1))), U. clear. intros. nia. }
  set (P := pw 10 (x - 6)) in *. set (N := pw 10 (- (x - 6))) in *.
  assert (HP : 0 < P) by (apply pw_pos; lia). assert (HN : 0 < N) by (apply pw_pos; lia).
  destruct (round_div_spec (v * N) (U * P)) as [M0 MS]; [nia|nia|].
  set (m0 := round_div (v * N) (U * P)) in *.
  (* 10^6 U P <= v N < 10^7 U P *)
  assert (B1 : 10 ^ 6 * (U * P) <= v * N).
  { pose proof (pw_add 10 (x - 6) 6 ltac:(lia) ltac:(lia)) as H. replace (x - 6 + 6) with x in H by lia. fold P N in H.
    pose proof (pw_pos 10 (- x) ltac:(lia)) as Q. apply (Z.mul_le_mono_pos_r _ _ _ Q).
    replace (10 ^ 6 * (U * P) * pw 10 (- x)) with (U * (10 ^ 6 * P * pw 10 (- x))) by ring. rewrite <- H.
    replace (U * (pw 10 x * N)) with (pw 10 x * U * N) by ring. replace (v * N * pw 10 (- x)) with (v * pw 10 (- x) * N) by ring.
    apply Z.mul_le_mono_nonneg_r; lia. }
  assert (B2 : v * N <= 10 ^ 7 * (U * P)).
  { pose proof (pw_add 10 (x - 6) 7 ltac:(lia) ltac:(lia)) as H. replace (x - 6 + 7) with (x + 1) in H by lia. fold P N in H.
    pose proof (pw_pos 10 (- (x + 1)) ltac:(lia)) as Q. apply (Z.mul_le_mono_pos_r _ _ _ Q).
    replace (10 ^ 7 * (U * P) * pw 10 (- (x + 1))) with (U * (10 ^ 7 * P * pw 10 (- (x + 1)))) by ring. rewrite <- H.
    replace (U * (pw 10 (x + 1) * N)) with (pw 10 (x + 1) * U * N) by ring. replace (v * N * pw 10 (- (x + 1))) with (v * pw 10 (- (x + 1)) * N) by ring.
    apply Z.mul_le_mono_nonneg_r; lia. }
  assert (C1 : 10 ^ 6 <= m0) by (apply round_div_low; [nia|nia|exact B1]).
  assert (C2 : m0 <= 10 ^ 7) by (apply round_div_up; [nia|nia|exact B2]).
  assert (ER : 2 * 10 ^ 6 * Z.abs (m0 * P * U - v * N) <= v * N).
  { replace (m0 * P * U) with (m0 * (U * P)) by ring. change (10 ^ 6) with 1000000 in *. revert MS B1. clear.
    generalize (m0 * (U * P) - v * N), (U * P), (v * N). intros. lia. }
  (* the decimal number is not above DMAX *)
  assert (OV : m0 * P <= DMAX * N).
  { destruct (Z.eq_dec x 308) as [->|Hx].
    - assert (C3 : m0 <= 1797693).
      { apply round_div_up'; [nia|nia|]. unfold P, N. change (308 - 6) with 302. rewrite (pw_nonneg 302), (pw_neg (- (302))) by lia. rewrite Z.mul_1_r.
        assert (G : 2 * DMAX < (2 * 1797693 + 1) * 10 ^ 302) by (apply Z.ltb_lt; vm_compute; reflexivity).
        revert G HM HU. generalize DMAX, (10 ^ 302), U. clear. intros. nia. }
      unfold P, N. change (308 - 6) with 302. rewrite (pw_nonneg 302), (pw_neg (- (302))) by lia. rewrite Z.mul_1_r.
      assert (G : 1797693 * 10 ^ 302 <= DMAX) by (apply Z.leb_le; vm_compute; reflexivity).
      assert (G2 : 0 < 10 ^ 302) by (apply Z.pow_pos_nonneg; lia). revert G G2 C3. generalize DMAX, (10 ^ 302). clear. intros. nia.
    - pose proof (pw_add 10 (x - 6) 7 ltac:(lia) ltac:(lia)) as H. replace (x - 6 + 7) with (x + 1) in H by lia. fold P N in H.
      assert (G : pw 10 (x + 1) <= DMAX * pw 10 (- (x + 1))).
      { assert (G0 : 10 ^ 308 <= DMAX) by (apply Z.leb_le; vm_compute; reflexivity).
        assert (G1 : pw 10 (x + 1) <= 10 ^ 308) by (unfold pw; apply Z.pow_le_mono_r; lia).
        pose proof (pw_pos 10 (- (x + 1)) ltac:(lia)) as Q. assert (0 <= DMAX) by (vm_compute; discriminate).
        revert G0 G1 Q H0. generalize (pw 10 (x + 1)), (pw 10 (- (x + 1))), DMAX, (10 ^ 308). clear. intros. nia. }
      pose proof (pw_pos 10 (- (x + 1)) ltac:(lia)) as Q. apply (Z.mul_le_mono_pos_r _ _ _ Q).
      apply Z.le_trans with (10 ^ 7 * P * pw 10 (- (x + 1))).
      + apply Z.mul_le_mono_nonneg_r; [lia|]. apply Z.mul_le_mono_nonneg_r; lia.
      + rewrite <- H. revert G HN. generalize DMAX. clear. intros. nia. }
  destruct (m0 =? 10 ^ 7) eqn:E7; zcmp.
  - injection E as <- <-. change (Z.pow_pos 10 6) with (10 ^ 6).
    (* 10^7 P / N is 10^6 P' / N' *)
    pose proof (pw_add 10 (x - 6) 1 ltac:(lia) ltac:(lia)) as H. fold P N in H. replace (x + 1 - 6) with (x - 6 + 1) by lia.
    pose proof (pw_pos 10 (x - 6 + 1) ltac:(lia)) as QP. pose proof (pw_pos 10 (- (x - 6 + 1)) ltac:(lia)) as QN.
    set (P' := pw 10 (x - 6 + 1)) in *. set (N' := pw 10 (- (x - 6 + 1))) in *. change (10 ^ 1) with 10 in H.
    rewrite E7 in ER, OV. change (10 ^ 7) with (10 ^ 6 * 10) in ER, OV. change (10 ^ 7) with 10000000.
    assert (K : 10 ^ 6 * 10 * P * N' = 10 ^ 6 * P' * N) by (rewrite <- !Z.mul_assoc; f_equal; lia).
    split; [lia|]. split; [lia|]. split.
    + apply (Z.mul_le_mono_pos_r _ _ _ HN). rewrite <- K. replace (DMAX * N' * N) with (DMAX * N * N') by ring.
      apply Z.mul_le_mono_nonneg_r; lia.
    + apply (Z.mul_le_mono_pos_r _ _ _ HN). replace (v * N' * N) with (v * N * N') by ring.
      replace (2 * 10 ^ 6 * Z.abs (10 ^ 6 * P' * U - v * N') * N) with (2 * 10 ^ 6 * Z.abs (10 ^ 6 * 10 * P * U - v * N) * N').
      * apply Z.mul_le_mono_nonneg_r; [lia|exact ER].
      * rewrite <- !(Z.mul_assoc (2 * 10 ^ 6)). f_equal. rewrite <- (Z.abs_eq N) at 2 by lia. rewrite <- (Z.abs_eq N') at 1 by lia.
        rewrite <- !Z.abs_mul. f_equal. rewrite !Z.mul_sub_distr_r. f_equal; [|ring].
        replace (10 ^ 6 * 10 * P * U * N') with (10 ^ 6 * 10 * P * N' * U) by ring. rewrite K. ring.
  - injection E as <- <-. fold P N. change (10 ^ 7) with 10000000 in *. split; [lia|]. split; [lia|]. split; [exact OV|exact ER].
Qed.

Lemma near_opp_le a b : 10 ^ 6 * Z.abs (b - a) <= Z.abs a + 10 ^ 6 -> 10 ^ 6 * Z.abs (- b - - a) <= Z.abs (- a) + 10 ^ 6.
Proof. lia. Qed.

Theorem scan_le b : exists y, scan_double (fmt_le b) = Some y /\ near b y.
Proof.
  unfold fmt_le. destruct (num64 b) as [| |v|] eqn:E.
  1, 2, 4: destruct (special_scan fmt_sci b _ E ltac:(discriminate)) as (y & H1 & H2); exists y; unfold near; rewrite E; auto.
  unfold near. rewrite E. unfold with_sign. rewrite E, sg_scan.
  pose proof (num64_bound b v E) as HB. pose proof (num64_sign b v E) as HS.
  rewrite fmt_sci_pair. destruct (sci_pair (Z.abs v)) as [m e] eqn:EP.
  assert (A : 0 <= m < 10 ^ 7 /\ Z.abs e < 1000 /\ exists w, num64 (dec_value m 6 e) = Fin w /\ 0 <= dec_value m 6 e < 2 ^ 63 /\
             10 ^ 6 * Z.abs (w - Z.abs v) <= Z.abs (Z.abs v) + 10 ^ 6).
  { destruct (Z.eq_dec v 0) as [->|Hv].
    - change (sci_pair (Z.abs 0)) with (0, 0) in EP. injection EP as <- <-. split; [lia|]. split; [lia|]. exists 0. vm_compute. repeat split; discriminate.
    - destruct (sci_spec (Z.abs v) m e ltac:(lia) EP) as (M & He & OV & ER). split; [assumption|]. split; [assumption|].
      unfold dec_value. change (Z.of_nat 6) with 6. set (P := pw 10 (e - 6)) in *. set (N := pw 10 (- (e - 6))) in *.
      assert (HP : 0 < P) by (apply pw_pos; lia). assert (HN : 0 < N) by (apply pw_pos; lia).
      destruct (round_f64_spec (m * P) N ltac:(nia) HN OV) as (w & W1 & W2 & W3 & W4).
      exists w. split; [assumption|]. split; [assumption|]. rewrite Z.abs_involutive.
      apply (Z.mul_le_mono_pos_r _ _ N HN).
      replace (10 ^ 6 * Z.abs (w - Z.abs v) * N) with (10 ^ 6 * Z.abs (w * N - Z.abs v * N))
        by (rewrite <- Z.mul_sub_distr_r, Z.abs_mul, (Z.abs_eq N) by lia; ring).
      rewrite Z.mul_add_distr_r. change (10 ^ 6) with 1000000 in *. change (2 ^ 53) with 9007199254740992 in W4. change (2 ^ 52) with 4503599627370496 in W4.
      assert (0 <= m * P * U) by (pose proof U_pos; nia).
      revert W4 ER H HN. generalize (w * N), (m * P * U), (Z.abs v * N). clear. intros. lia. }
  destruct A as (M & He & w & W1 & W2 & W3).
  destruct (scan_sci m e M He) as [FD SC]. cbv zeta in FD, SC. cbv zeta.
  destruct (signed_scan (fun a b => 10 ^ 6 * Z.abs (b - a) <= Z.abs a + 10 ^ 6) (negb (b / 2 ^ 63 mod 2 =? 0)) _ (Z.abs v) _ w FD SC W1 W2 ltac:(lia) W3 near_opp_le)
    as (y & w' & Y1 & Y2 & Y3).
  exists y. split; [exact Y1|]. exists w'. split; [exact Y2|].
  assert (EV : (if negb (b / 2 ^ 63 mod 2 =? 0) then - Z.abs v else Z.abs v) = v)
    by (destruct (b / 2 ^ 63 mod 2 =? 0); cbn [negb]; lia).
  rewrite EV in Y3. exact Y3.
Qed.

(** ** [%.<p>lf] *)

Lemma near_abs_opp_le p a b :
  10 ^ 15 * 10 ^ p * Z.abs (b - a) <= 10 ^ 15 * U + 10 ^ p * Z.abs a ->
  10 ^ 15 * 10 ^ p * Z.abs (- b - - a) <= 10 ^ 15 * U + 10 ^ p * Z.abs (- a).
Proof. replace (- b - - a) with (- (b - a)) by lia. rewrite !Z.abs_opp. auto. Qed.

Theorem scan_lf p b : (1 <= p <= 6)%nat -> exists y, scan_double (fmt_lf p b) = Some y /\ near_abs (Z.of_nat p) b y.
Proof.
  intros Hp. unfold fmt_lf. destruct (num64 b) as [| |v|] eqn:E.
  1, 2, 4: destruct (special_scan (fun v => fmt_fixed p v (2 ^ 1074)) b _ E ltac:(discriminate)) as (y & H1 & H2); exists y; unfold near_abs; rewrite E;
    auto.
  unfold near_abs. rewrite E. unfold with_sign. rewrite E, sg_scan. fold U.
  pose proof (num64_bound b v E) as HB. pose proof (num64_sign b v E) as HS. pose proof U_pos as HU.
  unfold fmt_fixed. set (T := 10 ^ Z.of_nat p). assert (HT : 0 < T) by (apply Z.pow_pos_nonneg; lia).
  assert (HT6 : 4 * T <= U).
  { apply Z.le_trans with (4 * 10 ^ 6); [|apply Z.leb_le; vm_compute; reflexivity].
    apply Z.mul_le_mono_nonneg_l; [lia|]. apply Z.pow_le_mono_r; lia. }
  destruct (round_div_spec (Z.abs v * T) U ltac:(nia) HU) as [N0 NS].
  set (n := round_div (Z.abs v * T) U) in *.
  assert (NM : n <= DMAX * T).
  { apply round_div_up; [nia|assumption|]. replace (DMAX * T * U) with (DMAX * U * T) by ring. apply Z.mul_le_mono_nonneg_r; lia. }
  assert (NQ : n / T < 10 ^ Z.of_nat 400).
  { apply Z.div_lt_upper_bound; [assumption|]. eapply Z.le_lt_trans; [exact NM|]. rewrite Z.mul_comm. apply Z.mul_lt_mono_pos_l; [assumption|].
    apply Z.ltb_lt. vm_compute. reflexivity. }
  destruct (scan_fixed 399 p n ltac:(lia) N0 NQ) as [FD SC]. cbv zeta in FD, SC. fold T in FD, SC.
  assert (ED : dec_value n p 0 = round_f64 n T).
  { unfold dec_value. rewrite pw_neg, pw_nonneg by lia. rewrite Z.mul_1_r. f_equal. unfold T. f_equal. lia. }
  destruct (round_f64_spec n T N0 HT NM) as (w & W1 & W2 & W3 & W4).
  assert (W : 10 ^ 15 * T * Z.abs (w - Z.abs v) <= 10 ^ 15 * U + T * Z.abs (Z.abs v)).
  { rewrite Z.abs_involutive. replace (10 ^ 15 * T * Z.abs (w - Z.abs v)) with (10 ^ 15 * Z.abs (w * T - Z.abs v * T))
      by (rewrite <- Z.mul_sub_distr_r, Z.abs_mul, (Z.abs_eq T) by lia; ring).
    rewrite (Z.mul_comm T). change (2 ^ 53) with 9007199254740992 in W4. change (2 ^ 52) with 4503599627370496 in W4. change (10 ^ 15) with 1000000000000000.
    assert (0 <= Z.abs v * T) by nia.
    revert W4 NS HT6 HT H. generalize (w * T), (n * U), (Z.abs v * T), U. clear. intros. lia. }
  rewrite <- ED in W1, W3.
  destruct (signed_scan (fun a b => 10 ^ 15 * T * Z.abs (b - a) <= 10 ^ 15 * U + T * Z.abs a)
    (negb (b / 2 ^ 63 mod 2 =? 0)) _ (Z.abs v) _ w FD SC W1 W3 ltac:(lia) W (near_abs_opp_le (Z.of_nat p)))
    as (y & w' & Y1 & Y2 & Y3).
  exists y. split; [exact Y1|]. exists w'. split; [exact Y2|].
  assert (EV : (if negb (b / 2 ^ 63 mod 2 =? 0) then - Z.abs v else Z.abs v) = v)
    by (destruct (b / 2 ^ 63 mod 2 =? 0); cbn [negb]; lia).
  rewrite EV in Y3. exact Y3.
Qed.
