(** operator>> on the texts of add_auxiliary_data. *)

From Coq Require Import ZArith Ascii String List Bool Lia.
From Verif Require Import Base M_Bytes M_TecZone M_TecFile M_Scan M_Extract L_Base L_Text L_TecMin L_Plt L_Scan L_ScanF L_Near
  Spec_Xml Spec_Aux Spec_Extract L_Aux.
Import ListNotations.
Open Scope string_scope.
Open Scope Z_scope.

(** ** Exact numbers *)

Lemma round_div_exact m y : 0 < y -> round_div (m * y) y = m.
Proof.
  intros Hy. unfold round_div. rewrite Z.div_mul, Z.mod_mul by lia. cbv zeta. destruct (2 * 0 <? y) eqn:E; zcmp; lia.
Qed.

Lemma round_f64_exact k m a b : 0 <= k <= 2045 -> 0 < m < 2 ^ 53 -> (k = 0 \/ 2 ^ 52 <= m) -> 0 < b ->
  a * U = m * 2 ^ k * b -> round_f64 a b = k * 2 ^ 52 + m.
Proof.
  intros Hk Hm Hc Hb E. pose proof U_pos as HU0.
  assert (HK : 0 < 2 ^ k) by (apply Z.pow_pos_nonneg; lia).
  assert (Ha : 0 < a). { revert E HU0 HK. generalize U, (2 ^ k). intros. assert (0 < m * z0) by nia. nia. }
  unfold round_f64. destruct (a =? 0) eqn:E0; zcmp; [lia|].
  destruct (exp2_spec a b Ha Hb) as [F1 F2]. cbv zeta in F1, F2. cbv zeta.
  set (e := if a * 2 ^ Z.max 0 (- (Z.log2 a - Z.log2 b)) <? b * 2 ^ Z.max 0 (Z.log2 a - Z.log2 b)
            then Z.log2 a - Z.log2 b - 1 else Z.log2 a - Z.log2 b) in *. clearbody e.
  set (V := m * 2 ^ k) in *. assert (HV : 0 < V) by (unfold V; nia).
  (* the same with V / U in place of a / b *)
  assert (G1 : U * pw 2 e <= V * pw 2 (- e)).
  { apply (Z.mul_le_mono_pos_r _ _ b Hb). replace (V * pw 2 (- e) * b) with (V * b * pw 2 (- e)) by ring. rewrite <- E.
    replace (U * pw 2 e * b) with (b * pw 2 e * U) by ring. replace (a * U * pw 2 (- e)) with (a * pw 2 (- e) * U) by ring.
    apply Z.mul_le_mono_nonneg_r; lia. }
  assert (G2 : V * pw 2 (- (e + 1)) < U * pw 2 (e + 1)).
  { apply (Z.mul_lt_mono_pos_r b _ _ Hb). replace (V * pw 2 (- (e + 1)) * b) with (V * b * pw 2 (- (e + 1))) by ring. rewrite <- E.
    replace (U * pw 2 (e + 1) * b) with (b * pw 2 (e + 1) * U) by ring. replace (a * U * pw 2 (- (e + 1))) with (a * pw 2 (- (e + 1)) * U) by ring.
    apply Z.mul_lt_mono_pos_r; lia. }
  assert (PU : forall x, -1074 <= x -> U * pw 2 x = 2 ^ (x + 1074) * pw 2 (- x)).
  { intros x Hx. unfold U, pw. rewrite <- !Z.pow_add_r by lia. f_equal. lia. }
  assert (He : -1074 <= e).
  { destruct (Z_le_gt_dec (-1074) e) as [|H]; [assumption|exfalso].
    assert (Q : U <= pw 2 (- (e + 1))) by (unfold U, pw; apply Z.pow_le_mono_r; lia).
    assert (Q' : pw 2 (e + 1) = 1) by (unfold pw; rewrite Z.max_l by lia; reflexivity).
    rewrite Q' in G2. revert Q G2 HV HU0. generalize (pw 2 (- (e + 1))), U. clear. intros. nia. }
  rewrite PU in G1 by lia. rewrite PU in G2 by lia.
  apply Z.mul_le_mono_pos_r in G1; [|apply pw_pos; lia]. apply Z.mul_lt_mono_pos_r in G2; [|apply pw_pos; lia].
  assert (Ex : Z.max (e - 52) (-1074) = k - 1074).
  { destruct Hc as [->|Hc].
    - assert (EV : V = m) by (unfold V; rewrite Z.pow_0_r; lia).
      assert (e + 1074 < 53) by (apply (Z.pow_lt_mono_r_iff 2); [lia|lia|]; lia). lia.
    - assert (L : 2 ^ (52 + k) <= V) by (rewrite Z.pow_add_r by lia; unfold V; apply Z.mul_le_mono_nonneg_r; lia).
      assert (R : V < 2 ^ (53 + k)) by (rewrite Z.pow_add_r by lia; unfold V; apply Z.mul_lt_mono_pos_r; lia).
      assert (52 + k < e + 1 + 1074) by (apply (Z.pow_lt_mono_r_iff 2); [lia|lia|]; lia).
      assert (e + 1074 < 53 + k) by (apply (Z.pow_lt_mono_r_iff 2); [lia|lia|]; lia). lia. }
  rewrite Ex. set (ex := k - 1074) in *. fold (pw 2 (- ex)) (pw 2 ex).
  assert (HU : pw 2 ex * U = 2 ^ k * pw 2 (- ex)) by (rewrite Z.mul_comm, PU by (unfold ex; lia); f_equal; f_equal; unfold ex; lia).
  assert (M : round_div (a * pw 2 (- ex)) (b * pw 2 ex) = m).
  { replace (a * pw 2 (- ex)) with (m * (b * pw 2 ex)).
    - apply round_div_exact. pose proof (pw_pos 2 ex ltac:(lia)). nia.
    - apply (Z.mul_cancel_r _ _ U); [lia|]. replace (m * (b * pw 2 ex) * U) with (m * b * (pw 2 ex * U)) by ring. rewrite HU.
      replace (a * pw 2 (- ex) * U) with (a * U * pw 2 (- ex)) by ring. rewrite E. unfold V. ring. }
  rewrite M. unfold ex. replace (k - 1074 + 1074) with k by lia. apply Z.min_l.
  change (2 ^ 53) with (2 * 2 ^ 52) in Hm. assert (P : 0 < 2 ^ 52) by reflexivity. revert Hm P. generalize (2 ^ 52). intros. nia.
Qed.

(** A pattern by exponent and mantissa. *)
Lemma num64_parts b v : 0 <= b < 2 ^ 63 -> num64 b = Fin v -> v <> 0 ->
  exists k m, 0 <= k <= 2045 /\ 0 < m < 2 ^ 53 /\ (k = 0 \/ 2 ^ 52 <= m) /\ v = m * 2 ^ k /\ b = k * 2 ^ 52 + m.
Proof.
  intros Hb. unfold num64, fnum. cbv zeta. change (11 + 52) with 63. rewrite (Z.div_small b (2 ^ 63)) by assumption.
  change (0 mod 2) with 0. change (0 =? 0) with true. cbv iota. change (2 ^ 53) with (2 * 2 ^ 52).
  assert (P : 0 < 2 ^ 52) by reflexivity. change (2 ^ 63) with (2048 * 2 ^ 52) in Hb. change (2 ^ 11) with 2048.
  revert P Hb. generalize (2 ^ 52). intros p P Hb.
  pose proof (Z.div_mod b p ltac:(lia)) as D. pose proof (Z.mod_pos_bound b p P) as R.
  assert (Q : 0 <= b / p < 2048) by (split; [apply Z.div_pos; lia|apply Z.div_lt_upper_bound; lia]).
  rewrite (Z.mod_small (b / p)) by assumption. set (e := b / p) in *. set (f := b mod p) in *. clearbody e f.
  destruct (e =? 2048 - 1) eqn:E1; [destruct (f =? 0); discriminate|]. zcmp.
  destruct (e =? 0) eqn:E2; zcmp; intros H Hv; apply Fin_inj in H.
  - exists 0, f. rewrite Z.pow_0_r. repeat split; lia.
  - exists (e - 1), (p + f). repeat split; try lia.
Qed.

Lemma round_f64_value b v a c : 0 <= b < 2 ^ 63 -> num64 b = Fin v -> 0 < c -> a * U = v * c -> round_f64 a c = b.
Proof.
  intros Hb Hv Hc E. destruct (Z.eq_dec v 0) as [->|Hz].
  - assert (a = 0) by (pose proof U_pos; nia). subst a. unfold round_f64. rewrite Z.eqb_refl.
    destruct (Z.eq_dec b 0) as [->|Hn]; [reflexivity|exfalso].
    revert Hv. unfold num64, fnum. cbv zeta. change (11 + 52) with 63. rewrite (Z.div_small b (2 ^ 63)) by assumption.
    change (0 mod 2) with 0. change (0 =? 0) with true. cbv iota. assert (P : 0 < 2 ^ 52) by reflexivity.
    change (2 ^ 63) with (2048 * 2 ^ 52) in Hb. change (2 ^ 11) with 2048. revert P Hb. generalize (2 ^ 52). intros p P Hb.
    pose proof (Z.div_mod b p ltac:(lia)) as D. pose proof (Z.mod_pos_bound b p P) as R.
    assert (Q : 0 <= b / p < 2048) by (split; [apply Z.div_pos; lia|apply Z.div_lt_upper_bound; lia]).
    rewrite (Z.mod_small (b / p)) by assumption. set (e := b / p) in *. set (f := b mod p) in *. clearbody e f.
    destruct (e =? 2048 - 1) eqn:E1; [destruct (f =? 0); discriminate|]. zcmp.
    destruct (e =? 0) eqn:E2; zcmp; intros H; apply Fin_inj in H; [subst e; lia|].
    assert (0 < 2 ^ (e - 1)) by (apply Z.pow_pos_nonneg; lia). nia.
  - destruct (num64_parts b v Hb Hv Hz) as (k & m & H1 & H2 & H3 & H4 & ->). apply round_f64_exact; try assumption. now rewrite E, H4.
Qed.

Lemma num64_neg_all b : 0 <= b < 2 ^ 63 ->
  num64 (2 ^ 63 + b) = match num64 b with Fin w => Fin (- w) | NaN => NaN | PInf => MInf | MInf => PInf end.
Proof.
  intros Hb. unfold num64, fnum. cbv zeta.
  change (11 + 52) with 63. rewrite (Z.div_small b (2 ^ 63)) by assumption.
  assert (E1 : (2 ^ 63 + b) / 2 ^ 63 = 1).
  { revert Hb. generalize (2 ^ 63). intros q Hq. symmetry. apply (Z.div_unique _ _ _ b); lia. }
  rewrite E1. clear E1.
  change (0 mod 2) with 0. change (1 mod 2) with 1.
  replace ((2 ^ 63 + b) mod 2 ^ 52) with (b mod 2 ^ 52)
    by (replace (2 ^ 63 + b) with (b + 2 ^ 11 * 2 ^ 52) by (change (2 ^ 63) with (2 ^ 11 * 2 ^ 52); ring);
        symmetry; apply Z_mod_plus_full).
  replace ((2 ^ 63 + b) / 2 ^ 52 mod 2 ^ 11) with (b / 2 ^ 52 mod 2 ^ 11).
  2:{ replace (2 ^ 63 + b) with (b + 2 ^ 11 * 2 ^ 52) by (change (2 ^ 63) with (2 ^ 11 * 2 ^ 52); ring).
      rewrite Z_div_plus_full by lia. rewrite <- (Z_mod_plus_full (b / 2 ^ 52) 1 (2 ^ 11)). rewrite Z.mul_1_l. reflexivity. }
  change (0 =? 0) with true. change (1 =? 0) with false. cbv iota.
  destruct (_ =? 2 ^ 11 - 1); [destruct (_ =? 0); reflexivity|]. reflexivity.
Qed.

(** The sign and the rest of a pattern. *)
Lemma pattern_parts b v : 0 <= b < 2 ^ 64 -> num64 b = Fin v ->
  exists b', 0 <= b' < 2 ^ 63 /\ b = sgz (negb (b / 2 ^ 63 mod 2 =? 0)) + b' /\ num64 b' = Fin (Z.abs v).
Proof.
  intros Hb Hv. pose proof (num64_sign b v Hv) as HS.
  assert (P : 0 < 2 ^ 63) by reflexivity. assert (D : 2 ^ 64 = 2 * 2 ^ 63) by reflexivity. rewrite D in Hb. clear D.
  destruct (Z_lt_ge_dec b (2 ^ 63)) as [L|L].
  - rewrite (Z.div_small b) in * by lia. change (0 mod 2 =? 0) with true in *. cbv iota in HS. exists b. cbn [negb sgz].
    rewrite Z.abs_eq by assumption. repeat split; try lia. assumption.
  - assert (E1 : b / 2 ^ 63 = 1) by (revert Hb L; generalize (2 ^ 63); intros q Hq L; symmetry; apply (Z.div_unique _ _ _ (b - q)); lia).
    rewrite E1 in *. change (1 mod 2 =? 0) with false in *. cbv iota in HS. exists (b - 2 ^ 63). cbn [negb sgz].
    split; [lia|]. split; [lia|]. pose proof (num64_neg_all (b - 2 ^ 63) ltac:(lia)) as N.
    replace (2 ^ 63 + (b - 2 ^ 63)) with b in N by lia. rewrite Hv in N.
    destruct (num64 (b - 2 ^ 63)); try discriminate N. apply Fin_inj in N. f_equal. lia.
Qed.

Lemma scan_lf_exact b : six_decimals b -> scan_double (fmt_lf 6 b) = Some b.
Proof.
  intros (Hb & v & n0 & E & En). unfold fmt_lf, with_sign. rewrite E, sg_scan. fold U in *.
  destruct (pattern_parts b v Hb E) as (b' & B1 & B2 & B3). pose proof U_pos as HU.
  pose proof (num64_bound b v E) as HB. change (10 ^ 6) with (10 ^ Z.of_nat 6) in En.
  unfold fmt_fixed. set (T := 10 ^ Z.of_nat 6) in *. assert (HT : 0 < T) by (apply Z.pow_pos_nonneg; lia).
  assert (EA : Z.abs v * T = Z.abs n0 * U).
  { rewrite <- (Z.abs_eq T) at 1 by lia. rewrite <- (Z.abs_eq U) by lia. rewrite <- !Z.abs_mul. f_equal. exact En. }
  rewrite EA, round_div_exact by assumption. set (n := Z.abs n0) in *.
  assert (N0 : 0 <= n) by (unfold n; lia). clearbody n.
  assert (NM : n <= DMAX * T).
  { apply (Z.mul_le_mono_pos_r _ _ U HU). rewrite <- EA. replace (DMAX * T * U) with (DMAX * U * T) by ring. apply Z.mul_le_mono_nonneg_r; lia. }
  assert (NQ : n / T < 10 ^ Z.of_nat 400).
  { apply Z.div_lt_upper_bound; [assumption|]. eapply Z.le_lt_trans; [exact NM|]. rewrite Z.mul_comm. apply Z.mul_lt_mono_pos_l; [assumption|].
    apply Z.ltb_lt. vm_compute. reflexivity. }
  destruct (scan_fixed 399 6 n ltac:(lia) N0 NQ) as [FD SC]. cbv zeta in FD, SC. fold T in FD, SC.
  assert (ED : dec_value n 6 0 = round_f64 n T).
  { unfold dec_value. rewrite pw_neg, pw_nonneg by lia. rewrite Z.mul_1_r. f_equal. }
  rewrite scan_signed, SC, ED by exact FD. rewrite (round_f64_value b' (Z.abs v)) by (assumption || lia). now rewrite <- B2.
Qed.

(** ** The operators *)

Lemma scan_nonblank s y : scan_double s = Some y -> skip_ws s <> "".
Proof. unfold scan_double. intros H E. rewrite E in H. discriminate H. Qed.
Lemma skip_idem s : skip_ws (skip_ws s) = skip_ws s.
Proof. induction s as [|c s IH]; cbn; [reflexivity|]. destruct (is_ws c) eqn:E; [exact IH|]. cbn. now rewrite E. Qed.
Lemma scan_skip s : scan_double (skip_ws s) = scan_double s.
Proof. unfold scan_double. now rewrite skip_idem. Qed.
Lemma decimal_skip s : decimal (skip_ws s) = decimal s.
Proof. unfold decimal. now rewrite skip_idem. Qed.

(** A finite number: what sscanf reads is what is extracted. *)
Lemma extract_scan s y w old : scan_double s = Some y -> num64 y = Fin w -> extract_double s old = y.
Proof.
  intros H Hw. unfold extract_double. pose proof (scan_nonblank s y H) as N. rewrite <- scan_skip in H.
  assert (HI : y mod 2 ^ 63 =? 2047 * 2 ^ 52 = false).
  { apply Z.eqb_neq. intros E. revert Hw. unfold num64, fnum. cbv zeta. change (2 ^ (11 + 52)) with (2 ^ 63).
    pose proof (Z.div_mod y (2 ^ 63) ltac:(vm_compute; discriminate)) as D. rewrite E in D.
    assert (E1 : y / 2 ^ 52 mod 2 ^ 11 = 2 ^ 11 - 1).
    { rewrite D at 1. replace (2 ^ 63 * (y / 2 ^ 63) + 2047 * 2 ^ 52) with ((2047 + (y / 2 ^ 63) * 2 ^ 11) * 2 ^ 52)
        by (change (2 ^ 63) with (2 ^ 11 * 2 ^ 52); ring).
      rewrite Z.div_mul by (vm_compute; discriminate). rewrite Z_mod_plus_full. reflexivity. }
    rewrite E1, Z.eqb_refl. destruct (_ =? 0); [destruct (_ =? 0); discriminate|discriminate]. }
  destruct (skip_ws s) as [|c t] eqn:Es; [now elim N|]. clear N.
  assert (Sk : skip_ws (String c t) = String c t) by (rewrite <- Es; apply skip_idem).
  revert H. unfold scan_double. rewrite Sk. destruct (sign (String c t)) as [neg u].
  destruct (starts_nocase "inf" u).
  { intros H. exfalso. assert (Y : y = (if neg then 2 ^ 63 else 0) + 2047 * 2 ^ 52) by congruence. clear H. subst y.
    destruct neg; vm_compute in HI; discriminate HI. }
  destruct (starts_nocase "nan" u).
  { intros H. exfalso. assert (Y : y = (if neg then 2 ^ 63 else 0) + 2047 * 2 ^ 52 + 2 ^ 51) by congruence. clear H. subst y.
    destruct neg; vm_compute in Hw; discriminate Hw. }
  cbn [orb]. intros H. rewrite H, HI. reflexivity.
Qed.

Lemma near_abs_fin p b v y : num64 b = Fin v -> near_abs p b y -> exists w, num64 y = Fin w.
Proof. unfold near_abs. intros ->. intros (w & H & _). eauto. Qed.

Theorem extract_number b v old : num64 b = Fin v ->
  near_abs 6 b (extract_double (fmt_lf 6 b) old) /\ (six_decimals b -> extract_double (fmt_lf 6 b) old = b).
Proof.
  intros E. destruct (scan_lf 6 b ltac:(lia)) as (y & Y1 & Y2). destruct (near_abs_fin _ b v y E Y2) as [w W].
  rewrite (extract_scan _ y w old Y1 W). split; [exact Y2|]. intros H. rewrite scan_lf_exact in Y1 by assumption. congruence.
Qed.

(** Numbers that are not finite are not read. *)
Theorem extract_special b old : (forall v, num64 b <> Fin v) -> extract_double (fmt_lf 6 b) old = 0.
Proof.
  intros H. unfold fmt_lf, with_sign. destruct (num64 b) eqn:E; try (exfalso; eapply H; reflexivity);
    destruct (b / 2 ^ 63 mod 2 =? 0); reflexivity.
Qed.

(** ** Integers *)

Lemma decimal_some s v : decimal s = Some v -> skip_ws s <> "".
Proof. unfold decimal. intros H E. rewrite E in H. discriminate H. Qed.
Lemma extract_int_decimal s v old : decimal s = Some v -> extract_int s old = Z.max INT_MIN (Z.min INT_MAX v).
Proof.
  intros H. unfold extract_int. pose proof (decimal_some s v H) as N. rewrite <- decimal_skip in H.
  destruct (skip_ws s) as [|c t]; [now elim N|]. now rewrite H.
Qed.
Lemma extract_unsigned_decimal s v old : decimal s = Some v ->
  extract_unsigned s old = if Z.abs v <? UINT_MOD then v mod UINT_MOD else UINT_MOD - 1.
Proof.
  intros H. unfold extract_unsigned. pose proof (decimal_some s v H) as N. rewrite <- decimal_skip in H.
  destruct (skip_ws s) as [|c t]; [now elim N|]. now rewrite H.
Qed.
Lemma decimal_li z : - 2 ^ 63 <= z < 2 ^ 63 -> decimal (fmt_li z) = Some z.
Proof.
  intros H. unfold fmt_li. apply (decimal_fmt 18). change (10 ^ Z.of_nat 19) with 10000000000000000000.
  change (2 ^ 63) with 9223372036854775808 in H. lia.
Qed.

(** ** Words *)

Lemma is_ws_white c : is_ws c = true <-> white c.
Proof. unfold is_ws, white. cbv zeta. split; [intros H|intros H]; [|repeat destruct H as [<-|H]; try reflexivity; now destruct H].
  cbn [In]. destruct (b2z c =? 32) eqn:A; zcmp; [lia|]. cbn [orb] in H. apply andb_true_iff in H. destruct H as [H1 H2]. zcmp. lia. Qed.
Lemma not_ws c : ~ white c -> is_ws c = false.
Proof. intros H. destruct (is_ws c) eqn:E; [|reflexivity]. now apply is_ws_white in E. Qed.

Lemma skip_white l s : all_white l -> skip_ws (l ++ s) = skip_ws s.
Proof.
  induction l as [|c l IH]; cbn [append]; intros H; [reflexivity|]. cbn [skip_ws].
  rewrite (proj2 (is_ws_white c)) by (apply H; now left). apply IH. intros d Hd. apply H. now right.
Qed.
Lemma word_app w r : no_white w -> (r = "" \/ exists c r', r = String c r' /\ white c) -> word (w ++ r) = w.
Proof.
  induction w as [|c w IH]; cbn [append]; intros H Hr.
  - destruct Hr as [->|(c & r' & -> & Hc)]; [reflexivity|]. cbn [word]. now rewrite (proj2 (is_ws_white c) Hc).
  - cbn [word]. rewrite (not_ws c) by (apply H; now left). f_equal. apply IH; [|assumption]. intros d Hd. apply H. now right.
Qed.
Theorem extract_word s w old : first_word s w -> extract_string s old = w.
Proof.
  intros (l & r & -> & Hl & Hw & Hn & Hr). unfold extract_string. rewrite skip_white by assumption.
  destruct w as [|c w]; [now elim Hw|]. cbn [append skip_ws]. rewrite (not_ws c) by (apply Hn; now left).
  apply (word_app (String c w) r Hn Hr).
Qed.
Lemma skip_all s : all_white s -> skip_ws s = "".
Proof.
  induction s as [|c s IH]; cbn [skip_ws]; intros H; [reflexivity|].
  rewrite (proj2 (is_ws_white c)) by (apply H; now left). apply IH. intros d Hd. apply H. now right.
Qed.
Theorem extract_blank s : all_white s ->
  (forall old, extract_string s old = old) /\ (forall old, extract_double s old = old) /\
  (forall old, extract_int s old = old) /\ (forall old, extract_unsigned s old = old).
Proof. intros H. unfold extract_string, extract_double, extract_int, extract_unsigned. rewrite (skip_all s H). auto. Qed.

(** Every text is blank or has a first word. *)
Theorem words_total s : all_white s \/ exists w, first_word s w.
Proof.
  assert (W : forall t, exists w r, t = w ++ r /\ no_white w /\ (r = "" \/ exists c r', r = String c r' /\ white c)).
  { induction t as [|c t (w & r & -> & H1 & H2)].
    - exists "", "". split; [reflexivity|]. split; [intros c []|now left].
    - destruct (is_ws c) eqn:E.
      + exists "", (String c (w ++ r)). split; [reflexivity|]. split; [intros d []|]. right. exists c, (w ++ r). split; [reflexivity|now apply is_ws_white].
      + exists (String c w), r. split; [reflexivity|]. split; [|assumption]. intros d [<-|Hd]; [|now apply H1].
        intros Hc. apply is_ws_white in Hc. congruence. }
  induction s as [|c s [IH|(w & l & r & E & Hl & Hw)]].
  - left. intros c [].
  - destruct (is_ws c) eqn:E.
    + left. intros d [<-|Hd]; [now apply is_ws_white|now apply IH].
    + right. destruct (W s) as (w & r & -> & H1 & H2). exists (String c w), "", r. split; [reflexivity|].
      split; [intros d []|]. split; [discriminate|]. split; [|assumption]. intros d [<-|Hd]; [|now apply H1].
      intros Hc. apply is_ws_white in Hc. congruence.
  - right. destruct (is_ws c) eqn:Ec.
    + exists w, (String c l), r. split; [cbn [append]; now rewrite E|]. split; [|assumption].
      intros d [<-|Hd]; [now apply is_ws_white|now apply Hl].
    + destruct (W s) as (w' & r' & Es & H1 & H2). exists (String c w'), "", r'. split; [cbn [append]; now rewrite Es|].
      split; [intros d []|]. split; [discriminate|]. split; [|assumption]. intros d [<-|Hd]; [|now apply H1].
      intros Hc. apply is_ws_white in Hc. congruence.
Qed.

(** ** Auxiliary data *)

Lemma kept l1 a1 bs1 n t a2 l2 a3 bs2 : add_all [] l1 = (a1, bs1) -> add_auxiliary_data a1 n t = (a2, true) ->
  add_all a2 l2 = (a3, bs2) -> forall what owner, get_auxiliary_data what owner a3 n = Ok t.
Proof.
  intros E1 E2 E3 what owner.
  pose proof (add_all_spec l1 [] []) as H. rewrite E1 in H. destruct H as (H1 & _ & _).
  { split; [constructor|]. intros p. cbn. split; [intros []|discriminate]. }
  cbn [app] in H1. pose proof (reflects_add l1 a1 n t H1) as H. rewrite E2 in H. destruct H as (H2 & Hf).
  pose proof (add_all_spec l2 _ a2 H2) as H. rewrite E3 in H. destruct H as (H3 & _ & _).
  unfold get_auxiliary_data. rewrite (aux_find_spec _ a3 n H3). rewrite !first_with_app.
  destruct (first_with n l1); [discriminate Hf|]. unfold first_with at 1. cbn [find fst]. rewrite String.eqb_refl. reflexivity.
Qed.

Section Got.
Variables (l1 l2 : list (string * string)) (a1 a2 a3 : aux) (bs1 bs2 : list bool) (n what owner : string).
Hypothesis E1 : add_all [] l1 = (a1, bs1).
Hypothesis E3 : add_all a2 l2 = (a3, bs2).

Lemma got {T} (x : string -> T -> T) t old : add_auxiliary_data a1 n t = (a2, true) -> get_auxiliary_as x what owner a3 n old = Ok (x t old).
Proof. intros E2. unfold get_auxiliary_as. now rewrite (kept l1 a1 bs1 n t a2 l2 a3 bs2 E1 E2 E3). Qed.

Lemma got_number b v old : num64 b = Fin v -> Z.abs v < 10 ^ 190 * 2 ^ 1074 -> add_auxiliary_double a1 n b = Ok (a2, true) ->
  exists y, get_auxiliary_as extract_double what owner a3 n old = Ok y /\ near_abs 6 b y /\ (six_decimals b -> y = b).
Proof.
  intros Hv HB E2. rewrite aux_number in E2 by (intros x Hx; assert (x = v) by (apply Fin_inj; congruence); now subst x).
  exists (extract_double (fmt_lf 6 b) old). split; [apply got; congruence|]. apply (extract_number b v old Hv).
Qed.

Lemma got_special b old : (forall v, num64 b <> Fin v) -> add_auxiliary_double a1 n b = Ok (a2, true) ->
  get_auxiliary_as extract_double what owner a3 n old = Ok 0.
Proof.
  intros Hv E2. rewrite aux_number in E2 by (intros x Hx; now elim (Hv x)).
  rewrite <- (extract_special b old Hv). apply got. congruence.
Qed.

Lemma got_word t w old : add_auxiliary_data a1 n t = (a2, true) -> first_word t w ->
  get_auxiliary_as extract_string what owner a3 n old = Ok w.
Proof. intros E2 H. rewrite <- (extract_word t w old H). now apply got. Qed.

Lemma got_blank t : add_auxiliary_data a1 n t = (a2, true) -> all_white t ->
  (forall old, get_auxiliary_as extract_string what owner a3 n old = Ok old) /\
  (forall old, get_auxiliary_as extract_double what owner a3 n old = Ok old) /\
  (forall old, get_auxiliary_as extract_int what owner a3 n old = Ok old) /\
  (forall old, get_auxiliary_as extract_unsigned what owner a3 n old = Ok old).
Proof.
  intros E2 H. destruct (extract_blank t H) as (H1 & H2 & H3 & H4).
  repeat split; intros old; rewrite (got _ t old E2); now rewrite ?H1, ?H2, ?H3, ?H4.
Qed.

Lemma got_integer z old : - 2 ^ 63 <= z < 2 ^ 63 -> add_auxiliary_data a1 n (fmt_li z) = (a2, true) ->
  get_auxiliary_as extract_int what owner a3 n old = Ok (Z.max INT_MIN (Z.min INT_MAX z)) /\
  get_auxiliary_as extract_unsigned what owner a3 n old = Ok (if Z.abs z <? UINT_MOD then z mod UINT_MOD else UINT_MOD - 1).
Proof.
  intros Hz E2. split; rewrite (got _ _ old E2); f_equal; [apply extract_int_decimal|apply extract_unsigned_decimal]; now apply decimal_li.
Qed.
End Got.

(** The whole text comes back exactly if it is one word. *)
Lemma one_word t : (forall old, extract_string t old = t) <-> t <> "" /\ no_white t.
Proof.
  split.
  - intros H. destruct (words_total t) as [Hb|[w Hw]].
    + destruct (extract_blank t Hb) as (Hx & _). specialize (Hx (String "a" t)). rewrite H in Hx. exfalso.
      apply (f_equal String.length) in Hx. cbn in Hx. lia.
    + specialize (H ""). rewrite (extract_word t w "" Hw) in H. subst w. destruct Hw as (l & r & _ & _ & H1 & H2 & _). auto.
  - intros [H1 H2] old. apply extract_word. exists "", "". rewrite append_nil_r. split; [reflexivity|].
    split; [intros c []|]. repeat split; auto.
Qed.
