(** Printed floating point numbers. *)

From Coq Require Import ZArith Ascii String List Bool Lia.
From Verif Require Import Base M_Bytes M_Scan L_Base L_Text L_TecMin L_Plt L_Scan L_ScanF L_Near M_Heap M_Print Spec_Print.
Import ListNotations.
Open Scope string_scope.
Open Scope Z_scope.

(** ** Rounding depends on the quotient only *)

Lemma round_div_scale x y k : 0 <= x -> 0 < y -> 0 < k -> round_div (x * k) (y * k) = round_div x y.
Proof.
  intros Hx Hy Hk. unfold round_div. cbv zeta. rewrite Z.div_mul_cancel_r by lia. rewrite Z.mul_mod_distr_r by lia.
  replace (2 * (x mod y * k)) with (2 * (x mod y) * k) by ring.
  assert (A : forall p q, (p * k <? q * k) = (p <? q)).
  { intros p q. destruct (p <? q) eqn:E; zcmp; [apply Z.ltb_lt|apply Z.ltb_ge]; nia. }
  now rewrite !A.
Qed.
Lemma round_div_ratio x y x' y' : 0 <= x -> 0 < y -> 0 <= x' -> 0 < y' -> x * y' = x' * y -> round_div x y = round_div x' y'.
Proof.
  intros. rewrite <- (round_div_scale x y y'), <- (round_div_scale x' y' y) by assumption.
  f_equal; [assumption|ring].
Qed.

Lemma exp_unique a b e e' : 0 < a -> 0 < b ->
  b * pw 2 e <= a * pw 2 (- e) -> a * pw 2 (- (e + 1)) < b * pw 2 (e + 1) ->
  b * pw 2 e' <= a * pw 2 (- e') -> a * pw 2 (- (e' + 1)) < b * pw 2 (e' + 1) -> e = e'.
Proof.
  intros Ha Hb.
  assert (G : forall e e', b * pw 2 e' <= a * pw 2 (- e') -> a * pw 2 (- (e + 1)) < b * pw 2 (e + 1) -> e' <= e).
  { clear e e'. intros e e' H1 H2. destruct (Z_le_gt_dec e' e); [assumption|exfalso].
    pose proof (pw_add 2 (e + 1) (e' - (e + 1)) ltac:(lia) ltac:(lia)) as H. replace (e + 1 + (e' - (e + 1))) with e' in H by lia.
    pose proof (pw_pos 2 e' ltac:(lia)). pose proof (pw_pos 2 (- e') ltac:(lia)).
    pose proof (pw_pos 2 (e + 1) ltac:(lia)). pose proof (pw_pos 2 (- (e + 1)) ltac:(lia)).
    assert (1 <= 2 ^ (e' - (e + 1))) by (apply (Z.pow_le_mono_r 2 0); lia).
    set (p := pw 2 e') in *. set (n := pw 2 (- e')) in *. set (p1 := pw 2 (e + 1)) in *. set (n1 := pw 2 (- (e + 1))) in *.
    set (D := 2 ^ (e' - (e + 1))) in *.
    assert (X1 : b * p * n1 <= a * n * n1) by (apply Z.mul_le_mono_nonneg_r; lia).
    assert (X2 : a * n1 * n < b * p1 * n) by (apply Z.mul_lt_mono_pos_r; lia).
    replace (b * p * n1) with (b * (p * n1)) in X1 by ring. rewrite H in X1.
    assert (X3 : b * p1 * n <= b * (D * p1 * n)).
    { replace (b * (D * p1 * n)) with (D * (b * p1 * n)) by ring. assert (0 <= b * p1 * n) by nia. nia. }
    lia. }
  intros. apply Z.le_antisymm; eapply G; eassumption.
Qed.

Lemma round_f64_ratio a b c d : 0 <= a -> 0 < b -> 0 <= c -> 0 < d -> a * d = c * b -> round_f64 a b = round_f64 c d.
Proof.
  intros Ha Hb Hc Hd E. unfold round_f64.
  destruct (a =? 0) eqn:E0; zcmp.
  { assert (c = 0) by nia. subst c. reflexivity. }
  destruct (c =? 0) eqn:E1; zcmp; [nia|].
  destruct (exp2_spec a b ltac:(lia) Hb) as [F1 F2]. destruct (exp2_spec c d ltac:(lia) Hd) as [G1 G2]. cbv zeta in *.
  set (e := if a * 2 ^ Z.max 0 (- (Z.log2 a - Z.log2 b)) <? b * 2 ^ Z.max 0 (Z.log2 a - Z.log2 b)
            then Z.log2 a - Z.log2 b - 1 else Z.log2 a - Z.log2 b) in *.
  set (e' := if c * 2 ^ Z.max 0 (- (Z.log2 c - Z.log2 d)) <? d * 2 ^ Z.max 0 (Z.log2 c - Z.log2 d)
            then Z.log2 c - Z.log2 d - 1 else Z.log2 c - Z.log2 d) in *.
  clearbody e e'.
  assert (e = e').
  { apply (exp_unique a b); try assumption; try lia.
    - apply (Z.mul_le_mono_pos_r _ _ d Hd). replace (a * pw 2 (- e') * d) with (a * d * pw 2 (- e')) by ring. rewrite E.
      replace (b * pw 2 e' * d) with (d * pw 2 e' * b) by ring. replace (c * b * pw 2 (- e')) with (c * pw 2 (- e') * b) by ring.
      apply Z.mul_le_mono_nonneg_r; lia.
    - apply (Z.mul_lt_mono_pos_r d _ _ Hd). replace (a * pw 2 (- (e' + 1)) * d) with (a * d * pw 2 (- (e' + 1))) by ring. rewrite E.
      replace (b * pw 2 (e' + 1) * d) with (d * pw 2 (e' + 1) * b) by ring. replace (c * b * pw 2 (- (e' + 1))) with (c * pw 2 (- (e' + 1)) * b) by ring.
      apply Z.mul_lt_mono_pos_r; lia. }
  subst e'. set (ex := Z.max (e - 52) (-1074)). fold (pw 2 (- ex)) (pw 2 ex).
  pose proof (pw_pos 2 ex ltac:(lia)). pose proof (pw_pos 2 (- ex) ltac:(lia)). set (P := pw 2 ex) in *. set (N := pw 2 (- ex)) in *.
  rewrite (round_div_ratio (a * N) (b * P) (c * N) (d * P)); [reflexivity|nia|nia|nia|nia|].
  replace (a * N * (d * P)) with (a * d * (N * P)) by ring. rewrite E. ring.
Qed.

(** One more digit, a zero. *)
Lemma dec_value_zero v n e : 0 <= v -> dec_value (v * 10) (S n) e = dec_value v n e.
Proof.
  intros Hv. unfold dec_value.
  pose proof (pw_add 10 (e - Z.of_nat (S n)) 1 ltac:(lia) ltac:(lia)) as H. replace (e - Z.of_nat (S n) + 1) with (e - Z.of_nat n) in H by lia.
  change (10 ^ 1) with 10 in H.
  pose proof (pw_pos 10 (e - Z.of_nat n) ltac:(lia)). pose proof (pw_pos 10 (- (e - Z.of_nat n)) ltac:(lia)).
  pose proof (pw_pos 10 (e - Z.of_nat (S n)) ltac:(lia)). pose proof (pw_pos 10 (- (e - Z.of_nat (S n))) ltac:(lia)).
  apply round_f64_ratio; try nia.
Qed.

(** ** Reading *)

(** What may follow the decimals: nothing or an exponent. *)
Definition tail (r : string) (e : Z) : Prop := stops r /\ exponent r = Some e /\ match r with String c _ => b2z c <> 46 | "" => True end.

Lemma scan_general f : forall k q n r e, 0 <= q < 10 ^ Z.of_nat (S f) -> 0 <= n < 10 ^ Z.of_nat k -> tail r e ->
  first_digit (show (S f) q ++ fraction k n ++ r) /\
  scan_double (show (S f) q ++ fraction k n ++ r) = Some (dec_value (q * 10 ^ Z.of_nat k + n) k e).
Proof.
  intros k q n r e Hq Hn (Hr & He & Hp). split; [apply first_app; apply (show_first f); lia|].
  revert n Hn. induction k as [|k IH]; intros n Hn.
  - change (10 ^ Z.of_nat 0) with 1 in *. cbn [fraction append].
    assert (FD : first_digit (show (S f) q ++ r)) by (apply first_app; apply (show_first f); lia).
    unfold scan_double. destruct (digit_not_ws _ FD) as [-> ->]. destruct (digit_no_word _ FD) as [-> ->].
    destruct (show_digits f q r 0 0 Hq) as (L & HL & ->). rewrite digits_stop by assumption.
    replace (0 * 10 ^ Z.of_nat L + q) with (q * 1 + n) by lia.
    destruct r as [|c r].
    + destruct (0 + L =? 0)%nat eqn:E; [apply Nat.eqb_eq in E; lia|]. rewrite He. reflexivity.
    + destruct (b2z c =? 46) eqn:E46; zcmp; [contradiction|].
      destruct (0 + L =? 0)%nat eqn:E; [apply Nat.eqb_eq in E; lia|]. rewrite He. reflexivity.
  - pose proof (Z.div_mod n 10 ltac:(lia)) as Ed. rewrite Nat2Z.inj_succ, Z.pow_succ_r in Hn |- * by lia.
    cbn [fraction]. destruct (n mod 10 =? 0) eqn:E; zcmp.
    + rewrite IH by (split; [apply Z.div_pos; lia|apply Z.div_lt_upper_bound; lia]).
      rewrite <- dec_value_zero by (pose proof (Z.div_pos n 10); pose proof (Z.pow_pos_nonneg 10 (Z.of_nat k)); nia). do 2 f_equal. lia.
    + clear IH E. set (P := 10 ^ Z.of_nat (S k)) in *.
      assert (EP : 10 * 10 ^ Z.of_nat k = P) by (unfold P; rewrite Nat2Z.inj_succ, Z.pow_succ_r by lia; reflexivity). rewrite EP in *.
      assert (HP : 0 < P) by (apply Z.pow_pos_nonneg; lia).
      assert (FD : first_digit (show (S f) q ++ ("." ++ show_pad (S k) n) ++ r)) by (apply first_app; apply (show_first f); lia).
      unfold scan_double. destruct (digit_not_ws _ FD) as [-> ->]. destruct (digit_no_word _ FD) as [-> ->].
      destruct (show_digits f q (("." ++ show_pad (S k) n) ++ r) 0 0 Hq) as (L & HL & ->).
      rewrite digits_stop by reflexivity. rewrite append_assoc. cbn [append]. change (b2z "." =? 46) with true. cbv iota.
      rewrite show_pad_digits by lia. fold P. rewrite Z.mod_small by lia. rewrite digits_stop by assumption.
      destruct (0 + L + (0 + S k) =? 0)%nat eqn:E; [apply Nat.eqb_eq in E; lia|]. rewrite He.
      replace ((0 * 10 ^ Z.of_nat L + q) * P + n) with (q * P + n) by lia. reflexivity.
Qed.

Lemma tail_none : tail "" 0.
Proof. split; [exact I|]. split; [reflexivity|exact I]. Qed.
Lemma tail_exp e : Z.abs e < 1000 ->
  tail ("e" ++ (if e <? 0 then "-" else "+") ++ (if Z.abs e <? 100 then show_pad 2 (Z.abs e) else show_pad 3 (Z.abs e))) e.
Proof.
  intros He. split; [reflexivity|]. split; [|cbn; discriminate]. cbn [append].
  unfold exponent. change (lower "e" =? 101) with true. cbv iota.
  assert (ES : forall r, sign ((if e <? 0 then "-" else "+") ++ r) = (e <? 0, r)) by (intros r; destruct (e <? 0); reflexivity).
  rewrite ES.
  assert (ED : digits (if Z.abs e <? 100 then show_pad 2 (Z.abs e) else show_pad 3 (Z.abs e)) 0 0 =
               (Z.abs e, (if (Z.abs e <? 100)%Z then 2 else 3)%nat, "")).
  { destruct (Z.abs e <? 100) eqn:A; zcmp.
    - pose proof (show_pad_digits 2 (Z.abs e) "" 0 0 ltac:(lia)) as D. rewrite append_nil_r in D. rewrite D. cbn [digits].
      rewrite Z.mod_small by (change (10 ^ Z.of_nat 2) with 100; lia). reflexivity.
    - pose proof (show_pad_digits 3 (Z.abs e) "" 0 0 ltac:(lia)) as D. rewrite append_nil_r in D. rewrite D. cbn [digits].
      rewrite Z.mod_small by (change (10 ^ Z.of_nat 3) with 1000; lia). reflexivity. }
  rewrite ED. assert (EK : ((if (Z.abs e <? 100)%Z then 2 else 3) =? 0)%nat = false) by (destruct (Z.abs e <? 100); reflexivity). rewrite EK.
  destruct (e <? 0) eqn:A; zcmp; f_equal; lia.
Qed.

Lemma scan_gen v m e : gen_pair v = (m, e) -> 0 <= m < 10 ^ 6 -> Z.abs e < 1000 ->
  first_digit (fmt_gen v) /\ scan_double (fmt_gen v) = Some (dec_value m 5 e).
Proof.
  intros E Hm He. unfold fmt_gen. rewrite E. destruct ((-4 <=? e) && (e <? 6)) eqn:S.
  - apply andb_prop in S. destruct S as [S1 S2]. zcmp.
    set (k := Z.to_nat (5 - e)). assert (Ek : 5 - e = Z.of_nat k) by lia. rewrite Ek.
    assert (HP : 0 < 10 ^ Z.of_nat k) by (apply Z.pow_pos_nonneg; lia). set (P := 10 ^ Z.of_nat k) in *.
    pose proof (Z.mod_pos_bound m P HP) as Hr. pose proof (Z.div_pos m P ltac:(lia) HP) as Hq. pose proof (Z.div_mod m P ltac:(lia)) as Hdm.
    destruct (scan_general 5 k (m / P) (m mod P) "" 0) as [A B]; [|exact Hr|exact tail_none|].
    { split; [exact Hq|]. change (10 ^ Z.of_nat 6) with (10 ^ 6). apply Z.div_lt_upper_bound; [lia|]. nia. }
    rewrite append_nil_r in A, B. split; [exact A|]. rewrite B. fold P. replace (m / P * P + m mod P) with m by lia.
    f_equal. unfold dec_value. f_equal; [f_equal; f_equal; lia|f_equal; lia].
  - cbv zeta. pose proof (Z.mod_pos_bound m (10 ^ 5) ltac:(lia)) as Hr. pose proof (Z.div_pos m (10 ^ 5) ltac:(lia) ltac:(lia)) as Hq.
    assert (G := fun H1 H2 => scan_general 0 5 (m / 10 ^ 5) (m mod 10 ^ 5) _ e H1 H2 (tail_exp e He)).
    destruct G as [A B]; [|exact Hr|].
    { split; [exact Hq|]. change (10 ^ Z.of_nat 1) with 10. apply Z.div_lt_upper_bound; [lia|]. change (10 ^ 5 * 10) with (10 ^ 6). lia. }
    split; [exact A|]. rewrite B. change (10 ^ Z.of_nat 5) with (10 ^ 5). f_equal. f_equal.
    pose proof (Z.div_mod m (10 ^ 5) ltac:(lia)). lia.
Qed.

(** ** The digits *)

Lemma round6 v e : (if 0 <=? 5 - e then round_div (v * 10 ^ (5 - e)) U else round_div v (U * 10 ^ (e - 5)))
  = round_div (v * pw 10 (- (e - 5))) (U * pw 10 (e - 5)).
Proof.
  destruct (0 <=? 5 - e) eqn:E; zcmp.
  - rewrite (pw_neg (e - 5)), (pw_nonneg (- (e - 5))) by lia. rewrite Z.mul_1_r. replace (- (e - 5)) with (5 - e) by lia. reflexivity.
  - rewrite (pw_nonneg (e - 5)), (pw_neg (- (e - 5))) by lia. rewrite Z.mul_1_r. reflexivity.
Qed.

Lemma gen_spec v m e : 0 < v <= DMAX * U -> gen_pair v = (m, e) ->
  0 <= m < 10 ^ 6 /\ Z.abs e < 1000 /\ m * pw 10 (e - 5) <= DMAX * pw 10 (- (e - 5)) /\
  2 * 10 ^ 5 * Z.abs (m * pw 10 (e - 5) * U - v * pw 10 (- (e - 5))) <= v * pw 10 (- (e - 5)).
Proof.
  intros [Hv HM] E. unfold gen_pair in E. destruct (v =? 0) eqn:E0; zcmp; [lia|]. cbv zeta in E. fold U in E.
  assert (HB : v < 2 ^ 2098).
  { eapply Z.le_lt_trans; [exact HM|]. apply Z.ltb_lt. vm_compute. reflexivity. }
  destruct (exponent_ok v (conj Hv HB)) as [L1 L2]. fold U in L1, L2. clear HB.
  set (x := exp10 v U) in *. clearbody x. rewrite round6 in E.
  rewrite le10_pw in L1, L2. apply Z.nle_gt in L2. pose proof U_pos as HU.
  (* range of x *)
  assert (X2 : x <= 308).
  { destruct (Z_le_gt_dec x 308); [assumption|exfalso]. rewrite (pw_nonneg x), (pw_neg (- x)) in L1 by lia.
    assert (G : 10 ^ 309 <= 10 ^ x) by (apply Z.pow_le_mono_r; lia).
    assert (G2 : DMAX < 10 ^ 309) by (apply Z.ltb_lt; vm_compute; reflexivity).
    revert L1 HM G G2 HU. generalize (10 ^ 309), (10 ^ x), DMAX, U. clear. intros. nia. }
  assert (X1 : -324 <= x).
  { destruct (Z_le_gt_dec (-324) x); [assumption|exfalso]. rewrite (pw_neg (x + 1)), (pw_nonneg (- (x + 1))) in L2 by lia.
    assert (G : 10 ^ 324 <= 10 ^ (- (x + 1))) by (apply Z.pow_le_mono_r; lia).
    assert (G2 : U <= 10 ^ 324) by (apply Z.leb_le; vm_compute; reflexivity).
    revert L2 G G2 HU Hv. generalize (10 ^ 324), (10 ^ (- (x + 1))), U. clear. intros. nia. }
  set (P := pw 10 (x - 5)) in *. set (N := pw 10 (- (x - 5))) in *.
  assert (HP : 0 < P) by (apply pw_pos; lia). assert (HN : 0 < N) by (apply pw_pos; lia).
  destruct (round_div_spec (v * N) (U * P)) as [M0 MS]; [nia|nia|].
  set (m0 := round_div (v * N) (U * P)) in *.
  (* 10^6 U P <= v N < 10^7 U P *)
  assert (B1 : 10 ^ 5 * (U * P) <= v * N).
  { pose proof (pw_add 10 (x - 5) 5 ltac:(lia) ltac:(lia)) as H. replace (x - 5 + 5) with x in H by lia. fold P N in H.
    pose proof (pw_pos 10 (- x) ltac:(lia)) as Q. apply (Z.mul_le_mono_pos_r _ _ _ Q).
    replace (10 ^ 5 * (U * P) * pw 10 (- x)) with (U * (10 ^ 5 * P * pw 10 (- x))) by ring. rewrite <- H.
    replace (U * (pw 10 x * N)) with (pw 10 x * U * N) by ring. replace (v * N * pw 10 (- x)) with (v * pw 10 (- x) * N) by ring.
    apply Z.mul_le_mono_nonneg_r; lia. }
  assert (B2 : v * N <= 10 ^ 6 * (U * P)).
  { pose proof (pw_add 10 (x - 5) 6 ltac:(lia) ltac:(lia)) as H. replace (x - 5 + 6) with (x + 1) in H by lia. fold P N in H.
    pose proof (pw_pos 10 (- (x + 1)) ltac:(lia)) as Q. apply (Z.mul_le_mono_pos_r _ _ _ Q).
    replace (10 ^ 6 * (U * P) * pw 10 (- (x + 1))) with (U * (10 ^ 6 * P * pw 10 (- (x + 1)))) by ring. rewrite <- H.
    replace (U * (pw 10 (x + 1) * N)) with (pw 10 (x + 1) * U * N) by ring. replace (v * N * pw 10 (- (x + 1))) with (v * pw 10 (- (x + 1)) * N) by ring.
    apply Z.mul_le_mono_nonneg_r; lia. }
  assert (C1 : 10 ^ 5 <= m0) by (apply round_div_low; [nia|nia|exact B1]).
  assert (C2 : m0 <= 10 ^ 6) by (apply round_div_up; [nia|nia|exact B2]).
  assert (ER : 2 * 10 ^ 5 * Z.abs (m0 * P * U - v * N) <= v * N).
  { replace (m0 * P * U) with (m0 * (U * P)) by ring. change (10 ^ 5) with 100000 in *. revert MS B1. clear.
    generalize (m0 * (U * P) - v * N), (U * P), (v * N). intros. lia. }
  (* the decimal number is not above DMAX *)
  assert (OV : m0 * P <= DMAX * N).
  { destruct (Z.eq_dec x 308) as [->|Hx].
    - assert (C3 : m0 <= 179769).
      { apply round_div_up'; [nia|nia|]. unfold P, N. change (308 - 5) with 303. rewrite (pw_nonneg 303), (pw_neg (- (303))) by lia. rewrite Z.mul_1_r.
        assert (G : 2 * DMAX < (2 * 179769 + 1) * 10 ^ 303) by (apply Z.ltb_lt; vm_compute; reflexivity).
        revert G HM HU. generalize DMAX, (10 ^ 303), U. clear. intros. nia. }
      unfold P, N. change (308 - 5) with 303. rewrite (pw_nonneg 303), (pw_neg (- (303))) by lia. rewrite Z.mul_1_r.
      assert (G : 179769 * 10 ^ 303 <= DMAX) by (apply Z.leb_le; vm_compute; reflexivity).
      assert (G2 : 0 < 10 ^ 303) by (apply Z.pow_pos_nonneg; lia). revert G G2 C3. generalize DMAX, (10 ^ 303). clear. intros. nia.
    - pose proof (pw_add 10 (x - 5) 6 ltac:(lia) ltac:(lia)) as H. replace (x - 5 + 6) with (x + 1) in H by lia. fold P N in H.
      assert (G : pw 10 (x + 1) <= DMAX * pw 10 (- (x + 1))).
      { assert (G0 : 10 ^ 308 <= DMAX) by (apply Z.leb_le; vm_compute; reflexivity).
        assert (G1 : pw 10 (x + 1) <= 10 ^ 308) by (unfold pw; apply Z.pow_le_mono_r; lia).
        pose proof (pw_pos 10 (- (x + 1)) ltac:(lia)) as Q. assert (0 <= DMAX) by (vm_compute; discriminate).
        revert G0 G1 Q H0. generalize (pw 10 (x + 1)), (pw 10 (- (x + 1))), DMAX, (10 ^ 308). clear. intros. nia. }
      pose proof (pw_pos 10 (- (x + 1)) ltac:(lia)) as Q. apply (Z.mul_le_mono_pos_r _ _ _ Q).
      apply Z.le_trans with (10 ^ 6 * P * pw 10 (- (x + 1))).
      + apply Z.mul_le_mono_nonneg_r; [lia|]. apply Z.mul_le_mono_nonneg_r; lia.
      + rewrite <- H. revert G HN. generalize DMAX. clear. intros. nia. }
  destruct (m0 =? 10 ^ 6) eqn:E6; zcmp.
  - injection E as <- <-. change (Z.pow_pos 10 5) with (10 ^ 5).
    (* 10^7 P / N is 10^6 P' / N' *)
    pose proof (pw_add 10 (x - 5) 1 ltac:(lia) ltac:(lia)) as H. fold P N in H. replace (x + 1 - 5) with (x - 5 + 1) by lia.
    pose proof (pw_pos 10 (x - 5 + 1) ltac:(lia)) as QP. pose proof (pw_pos 10 (- (x - 5 + 1)) ltac:(lia)) as QN.
    set (P' := pw 10 (x - 5 + 1)) in *. set (N' := pw 10 (- (x - 5 + 1))) in *. change (10 ^ 1) with 10 in H.
    rewrite E6 in ER, OV. change (10 ^ 6) with (10 ^ 5 * 10) in ER, OV. change (10 ^ 6) with 1000000.
    assert (K : 10 ^ 5 * 10 * P * N' = 10 ^ 5 * P' * N) by (rewrite <- !Z.mul_assoc; f_equal; lia).
    split; [lia|]. split; [lia|]. split.
    + apply (Z.mul_le_mono_pos_r _ _ _ HN). rewrite <- K. replace (DMAX * N' * N) with (DMAX * N * N') by ring.
      apply Z.mul_le_mono_nonneg_r; lia.
    + apply (Z.mul_le_mono_pos_r _ _ _ HN). replace (v * N' * N) with (v * N * N') by ring.
      replace (2 * 10 ^ 5 * Z.abs (10 ^ 5 * P' * U - v * N') * N) with (2 * 10 ^ 5 * Z.abs (10 ^ 5 * 10 * P * U - v * N) * N').
      * apply Z.mul_le_mono_nonneg_r; [lia|exact ER].
      * rewrite <- !(Z.mul_assoc (2 * 10 ^ 5)). f_equal. rewrite <- (Z.abs_eq N) at 2 by lia. rewrite <- (Z.abs_eq N') at 1 by lia.
        rewrite <- !Z.abs_mul. f_equal. rewrite !Z.mul_sub_distr_r. f_equal; [|ring].
        replace (10 ^ 5 * 10 * P * U * N') with (10 ^ 5 * 10 * P * N' * U) by ring. rewrite K. ring.
  - injection E as <- <-. fold P N. change (10 ^ 6) with 1000000 in *. split; [lia|]. split; [lia|]. split; [exact OV|exact ER].
Qed.


Lemma near_opp5 a b : 10 ^ 5 * Z.abs (b - a) <= Z.abs a + 10 ^ 5 -> 10 ^ 5 * Z.abs (- b - - a) <= Z.abs (- a) + 10 ^ 5.
Proof. lia. Qed.

Theorem scan_g b : exists y, scan_double (fmt_g b) = Some y /\ close b y.
Proof.
  unfold fmt_g. destruct (num64 b) as [| |v|] eqn:E.
  1, 2, 4: destruct (special_scan fmt_gen b _ E ltac:(discriminate)) as (y & H1 & H2); exists y; unfold close; rewrite E; auto.
  unfold close. rewrite E. unfold with_sign. rewrite E, sg_scan.
  pose proof (num64_bound b v E) as HB. pose proof (num64_sign b v E) as HS.
  destruct (gen_pair (Z.abs v)) as [m e] eqn:EP.
  assert (A : 0 <= m < 10 ^ 6 /\ Z.abs e < 1000 /\ exists w, num64 (dec_value m 5 e) = Fin w /\ 0 <= dec_value m 5 e < 2 ^ 63 /\
             10 ^ 5 * Z.abs (w - Z.abs v) <= Z.abs (Z.abs v) + 10 ^ 5).
  { destruct (Z.eq_dec v 0) as [->|Hv].
    - change (gen_pair (Z.abs 0)) with (0, 0) in EP. injection EP as <- <-. split; [lia|]. split; [lia|]. exists 0. vm_compute. repeat split; discriminate.
    - destruct (gen_spec (Z.abs v) m e ltac:(lia) EP) as (M & He & OV & ER). split; [assumption|]. split; [assumption|].
      unfold dec_value. change (Z.of_nat 5) with 5. set (P := pw 10 (e - 5)) in *. set (N := pw 10 (- (e - 5))) in *.
      assert (HP : 0 < P) by (apply pw_pos; lia). assert (HN : 0 < N) by (apply pw_pos; lia).
      destruct (round_f64_spec (m * P) N ltac:(nia) HN OV) as (w & W1 & W2 & W3 & W4).
      exists w. split; [assumption|]. split; [assumption|]. rewrite Z.abs_involutive.
      apply (Z.mul_le_mono_pos_r _ _ N HN).
      replace (10 ^ 5 * Z.abs (w - Z.abs v) * N) with (10 ^ 5 * Z.abs (w * N - Z.abs v * N))
        by (rewrite <- Z.mul_sub_distr_r, Z.abs_mul, (Z.abs_eq N) by lia; ring).
      rewrite Z.mul_add_distr_r. change (10 ^ 5) with 100000 in *. change (2 ^ 53) with 9007199254740992 in W4. change (2 ^ 52) with 4503599627370496 in W4.
      assert (0 <= m * P * U) by (pose proof U_pos; nia).
      revert W4 ER H HN. generalize (w * N), (m * P * U), (Z.abs v * N). clear. intros. lia. }
  destruct A as (M & He & w & W1 & W2 & W3).
  destruct (scan_gen (Z.abs v) m e EP M He) as [FD SC].
  destruct (signed_scan (fun a b => 10 ^ 5 * Z.abs (b - a) <= Z.abs a + 10 ^ 5) (negb (b / 2 ^ 63 mod 2 =? 0)) _ (Z.abs v) _ w FD SC W1 W2 ltac:(lia) W3 near_opp5)
    as (y & w' & Y1 & Y2 & Y3).
  exists y. split; [exact Y1|]. exists w'. split; [exact Y2|].
  assert (EV : (if negb (b / 2 ^ 63 mod 2 =? 0) then - Z.abs v else Z.abs v) = v)
    by (destruct (b / 2 ^ 63 mod 2 =? 0); cbn [negb]; lia).
  rewrite EV in Y3. exact Y3.
Qed.

(** ** Numbers with up to six digits *)

Lemma round_div_at x y c : 0 <= x -> 0 < y -> 2 * Z.abs (x - c * y) < y -> round_div x y = c.
Proof. intros Hx Hy H. destruct (round_div_spec x y Hx Hy) as [_ S]. nia. Qed.

(** [v] is near [m * 10^(x - 5)]: the digits are those of [m]. *)
Lemma gen_pair_at v m x : 10 ^ 5 <= m < 10 ^ 6 -> 0 < v < 2 ^ 2098 ->
  2 ^ 40 * Z.abs (v * pw 10 (- (x - 5)) - m * U * pw 10 (x - 5)) <= m * U * pw 10 (x - 5) ->
  gen_pair v = (m, x).
Proof.
  intros Hm Hv HE. unfold gen_pair. destruct (v =? 0) eqn:E0; zcmp; [lia|]. cbv zeta. fold U.
  destruct (exponent_ok v Hv) as [L1 L2]. fold U in L1, L2.
  set (x0 := exp10 v U) in *. clearbody x0. rewrite round6.
  rewrite le10_pw in L1, L2. apply Z.nle_gt in L2. pose proof U_pos as HU.
  (* the same with other exponents *)
  assert (SH : forall d, 0 <= d -> pw 10 (x - 5 + d) * pw 10 (- (x - 5)) = 10 ^ d * pw 10 (x - 5) * pw 10 (- (x - 5 + d))) by (intros; apply pw_add; lia).
  assert (P0 : forall e, 0 < pw 10 e) by (intros; apply pw_pos; lia).
  set (P := pw 10 (x - 5)) in *. set (N := pw 10 (- (x - 5))) in *.
  pose proof (P0 (x - 5)) as HP. fold P in HP. pose proof (P0 (- (x - 5))) as HN. fold N in HN.
  assert (UPp : 0 < U * P) by nia.
  change (2 ^ 40) with 1099511627776 in HE. change (10 ^ 5) with 100000 in *. change (10 ^ 6) with 1000000 in *.
  (* bounds of v N *)
  assert (B : m * (U * P) - (U * P) < 1000000 * (v * N) - (1000000 - 1) * (m * (U * P)) + 0 /\ 2 * Z.abs (v * N - m * (U * P)) < U * P /\
              20 * Z.abs (v * N - m * (U * P)) < U * P).
  { replace (m * U * P) with (m * (U * P)) in HE by ring. revert HE UPp Hm. generalize (U * P), (v * N). clear. intros y z H1 H2 H3.
    assert (m * y <= 1000000 * y) by nia. lia. }
  destruct B as (_ & B2 & B3).
  assert (X1 : x0 <= x).
  { destruct (Z_le_gt_dec x0 x) as [|G]; [assumption|exfalso].
    pose proof (SH (x0 - (x - 5)) ltac:(lia)) as S. replace (x - 5 + (x0 - (x - 5))) with x0 in S by lia.
    assert (G2 : 1000000 <= 10 ^ (x0 - (x - 5))) by (apply (Z.pow_le_mono_r 10 6); lia).
    pose proof (P0 (- x0)) as HN0. set (N0 := pw 10 (- x0)) in *. set (p0 := pw 10 x0) in *. set (D := 10 ^ (x0 - (x - 5))) in *.
    assert (T : p0 * U * N <= v * N0 * N) by (apply Z.mul_le_mono_nonneg_r; lia).
    replace (p0 * U * N) with (p0 * N * U) in T by ring. rewrite S in T.
    assert (T2 : D * (U * P) <= v * N).
    { apply (Z.mul_le_mono_pos_r _ _ N0 HN0). replace (D * (U * P) * N0) with (D * P * N0 * U) by ring. replace (v * N * N0) with (v * N0 * N) by ring. exact T. }
    clear T S L1 L2 HE. revert T2 B2 G2 UPp Hm. generalize (U * P), (v * N). clear. intros y z T2 B2 G2 Hy Hm.
    assert (1000000 * y <= D * y) by nia. assert (m * y <= 999999 * y) by nia. lia. }
  assert (X2 : x - 1 <= x0).
  { destruct (Z_le_gt_dec (x - 1) x0) as [|G]; [assumption|exfalso].
    (* v N < 10^4 U P *)
    pose proof (pw_add 10 (x0 + 1) (x - 1 - (x0 + 1)) ltac:(lia) ltac:(lia)) as S1. replace (x0 + 1 + (x - 1 - (x0 + 1))) with (x - 1) in S1 by lia.
    pose proof (SH 4 ltac:(lia)) as S2. replace (x - 5 + 4) with (x - 1) in S2 by lia. change (10 ^ 4) with 10000 in S2.
    assert (G2 : 1 <= 10 ^ (x - 1 - (x0 + 1))) by (apply (Z.pow_le_mono_r 10 0); lia).
    pose proof (P0 (x0 + 1)) as Hp1. pose proof (P0 (- (x0 + 1))) as Hn1. pose proof (P0 (x - 1)) as Hp4. pose proof (P0 (- (x - 1))) as Hn4.
    set (p1 := pw 10 (x0 + 1)) in *. set (n1 := pw 10 (- (x0 + 1))) in *. set (p4 := pw 10 (x - 1)) in *. set (n4 := pw 10 (- (x - 1))) in *.
    set (D := 10 ^ (x - 1 - (x0 + 1))) in *.
    assert (T : v * n4 < p4 * U).
    { apply (Z.mul_lt_mono_pos_r n1 _ _ Hn1). replace (p4 * U * n1) with (p4 * n1 * U) by ring. rewrite S1.
      replace (D * p1 * n4 * U) with (D * (p1 * U * n4)) by ring. replace (v * n4 * n1) with (v * n1 * n4) by ring.
      assert (v * n1 * n4 < p1 * U * n4) by (apply Z.mul_lt_mono_pos_r; lia). assert (0 < p1 * U * n4) by nia. nia. }
    assert (T2 : v * N < 10000 * (U * P)).
    { apply (Z.mul_lt_mono_pos_r n4 _ _ Hn4). replace (10000 * (U * P) * n4) with (10000 * P * n4 * U) by ring. rewrite <- S2.
      replace (v * N * n4) with (v * n4 * N) by ring. replace (p4 * N * U) with (p4 * U * N) by ring. apply Z.mul_lt_mono_pos_r; lia. }
    clear - T2 B2 UPp Hm. revert T2 B2 UPp Hm. generalize (U * P), (v * N). intros y z T2 B2 Hy Hm. assert (100000 * y <= m * y) by nia. lia. }
  assert (C : x0 = x \/ x0 = x - 1) by lia. destruct C as [->|C].
  - fold P N. rewrite (round_div_at (v * N) (U * P) m) by (nia || lia). destruct (m =? 1000000) eqn:E; zcmp; [lia|reflexivity].
  - (* just below a power of ten *)
    subst x0. replace (x - 1 + 1) with x in * by lia.
    pose proof (SH 5 ltac:(lia)) as S2. replace (x - 5 + 5) with x in S2 by lia. change (10 ^ 5) with 100000 in S2.
    pose proof (P0 x) as Hpx. pose proof (P0 (- x)) as Hnx. set (px := pw 10 x) in *. set (nx := pw 10 (- x)) in *.
    assert (T2 : v * N < 100000 * (U * P)).
    { apply (Z.mul_lt_mono_pos_r nx _ _ Hnx). replace (100000 * (U * P) * nx) with (100000 * P * nx * U) by ring. rewrite <- S2.
      replace (v * N * nx) with (v * nx * N) by ring. replace (px * N * U) with (px * U * N) by ring. apply Z.mul_lt_mono_pos_r; lia. }
    assert (m = 100000).
    { clear - T2 B2 UPp Hm. revert T2 B2 UPp Hm. generalize (U * P), (v * N). intros y z T2 B2 Hy Hm. nia. }
    subst m. replace (x - 1 - 5) with (x - 6) by lia.
    pose proof (pw_add 10 (x - 6) 1 ltac:(lia) ltac:(lia)) as S1. replace (x - 6 + 1) with (x - 5) in S1 by lia. fold P N in S1. change (10 ^ 1) with 10 in S1.
    pose proof (P0 (x - 6)) as Hp6. pose proof (P0 (- (x - 6))) as Hn6. set (p6 := pw 10 (x - 6)) in *. set (n6 := pw 10 (- (x - 6))) in *.
    rewrite (round_div_at (v * n6) (U * p6) 1000000).
    + reflexivity.
    + nia.
    + nia.
    + (* times N: P n6 = 10 p6 N *)
      apply (Z.mul_lt_mono_pos_r (10 * N)); [lia|].
      replace (U * p6 * (10 * N)) with (U * (10 * p6 * N)) by ring. rewrite <- S1.
      replace (2 * Z.abs (v * n6 - 1000000 * (U * p6)) * (10 * N)) with (20 * Z.abs (v * N - 100000 * (U * P)) * n6).
      * replace (U * (P * n6)) with (U * P * n6) by ring. apply Z.mul_lt_mono_pos_r; assumption.
      * replace (2 * Z.abs (v * n6 - 1000000 * (U * p6)) * (10 * N)) with (20 * (Z.abs (v * n6 - 1000000 * (U * p6)) * N)) by ring.
        rewrite <- Z.mul_assoc. f_equal. rewrite <- (Z.abs_eq n6) at 1 by lia. rewrite <- (Z.abs_eq N) at 2 by lia. rewrite <- !Z.abs_mul. f_equal.
        rewrite !Z.mul_sub_distr_r. f_equal; [ring|]. replace (100000 * (U * P) * n6) with (100000 * U * (P * n6)) by ring. rewrite S1. ring.
Qed.

Lemma sig_six m : 0 < m < 10 ^ 6 -> exists j, 0 <= j <= 5 /\ 10 ^ 5 <= m * 10 ^ j < 10 ^ 6.
Proof.
  change (10 ^ 6) with 1000000. change (10 ^ 5) with 100000. intros H.
  destruct (Z_lt_ge_dec m 10); [exists 5; change (10 ^ 5) with 100000; lia|].
  destruct (Z_lt_ge_dec m 100); [exists 4; change (10 ^ 4) with 10000; lia|].
  destruct (Z_lt_ge_dec m 1000); [exists 3; change (10 ^ 3) with 1000; lia|].
  destruct (Z_lt_ge_dec m 10000); [exists 2; change (10 ^ 2) with 100; lia|].
  destruct (Z_lt_ge_dec m 100000); [exists 1; change (10 ^ 1) with 10; lia|].
  exists 0; change (10 ^ 0) with 1; lia.
Qed.

Lemma consts_six : 10 ^ 306 <= DMAX /\ 10 ^ 300 * 2 ^ 52 <= U /\ DMAX * U < 2 ^ 2098.
Proof. split; [|split]; [apply Z.leb_le|apply Z.leb_le|apply Z.ltb_lt]; vm_compute; reflexivity. Qed.

(** The nearest [double] of [m * 10^e] prints the digits of [m]. *)
Lemma six_pos m e : 0 < m < 10 ^ 6 -> -300 <= e <= 300 ->
  exists w, num64 (round_f64 (m * pw 10 e) (pw 10 (- e))) = Fin w /\ 0 < w /\ 0 <= round_f64 (m * pw 10 e) (pw 10 (- e)) < 2 ^ 63 /\
    first_digit (fmt_gen w) /\ scan_double (fmt_gen w) = Some (round_f64 (m * pw 10 e) (pw 10 (- e))).
Proof.
  intros Hm He. destruct consts_six as (C1 & C2 & C3). pose proof U_pos as HU.
  assert (HP : 0 < pw 10 e) by (apply pw_pos; lia). assert (HN : 0 < pw 10 (- e)) by (apply pw_pos; lia).
  assert (BN : pw 10 (- e) <= 10 ^ 300).
  { unfold pw. apply Z.pow_le_mono_r; lia. }
  assert (BP : pw 10 e <= 10 ^ 300).
  { unfold pw. apply Z.pow_le_mono_r; lia. }
  assert (HD : m * pw 10 e <= DMAX * pw 10 (- e)).
  { apply Z.le_trans with (10 ^ 6 * 10 ^ 300); [apply Z.mul_le_mono_nonneg; lia|].
    rewrite <- Z.pow_add_r by lia. change (6 + 300) with 306. assert (C0 : 0 < 10 ^ 306) by (apply Z.pow_pos_nonneg; lia).
    revert C0 C1 HN. generalize DMAX, (10 ^ 306), (pw 10 (- e)). clear. intros; nia. }
  destruct (round_f64_spec (m * pw 10 e) (pw 10 (- e)) ltac:(nia) HN HD) as (w & Ew & Hw & Hb & HE).
  assert (HE' : 2 ^ 52 * Z.abs (w * pw 10 (- e) - m * pw 10 e * U) <= m * pw 10 e * U).
  { assert (pw 10 (- e) * 2 ^ 52 <= m * pw 10 e * U).
    { apply Z.le_trans with U; [|revert HU HP Hm; generalize U, (pw 10 e); clear; intros; assert (1 <= m * z0) by nia; nia].
      apply Z.le_trans with (10 ^ 300 * 2 ^ 52); [apply Z.mul_le_mono_nonneg_r; [apply Z.pow_nonneg; lia|assumption]|assumption]. }
    change (2 ^ 53) with (2 * 2 ^ 52) in HE. rewrite <- Z.mul_assoc in HE. revert HE H. generalize (2 ^ 52 * Z.abs (w * pw 10 (- e) - m * pw 10 e * U)) as A.
    generalize (pw 10 (- e) * 2 ^ 52). intros; lia. }
  exists w. split; [exact Ew|].
  assert (Hw0 : 0 < w).
  { destruct (Z.eq_dec w 0) as [->|]; [exfalso|lia]. rewrite Z.mul_0_l in HE'. assert (0 < m * pw 10 e * U) by nia.
    change (2 ^ 52) with 4503599627370496 in HE'. lia. }
  split; [exact Hw0|]. split; [exact Hb|].
  destruct (sig_six m Hm) as (j & Hj & Hmj).
  pose proof (pw_add 10 (e - j) j ltac:(lia) ltac:(lia)) as S. replace (e - j + j) with e in S by lia.
  assert (HP' : 0 < pw 10 (e - j)) by (apply pw_pos; lia). assert (HN' : 0 < pw 10 (- (e - j))) by (apply pw_pos; lia).
  assert (G : gen_pair w = (m * 10 ^ j, e + 5 - j)).
  { apply gen_pair_at; [exact Hmj| |].
    - split; [exact Hw0|]. pose proof (num64_bound _ _ Ew). lia.
    - replace (e + 5 - j - 5) with (e - j) by lia.
      apply (Z.mul_le_mono_pos_r _ _ (pw 10 (- e)) HN).
      replace (m * 10 ^ j * U * pw 10 (e - j) * pw 10 (- e)) with (m * U * (10 ^ j * pw 10 (e - j) * pw 10 (- e))) by ring. rewrite <- S.
      replace (2 ^ 40 * Z.abs (w * pw 10 (- (e - j)) - m * 10 ^ j * U * pw 10 (e - j)) * pw 10 (- e))
        with (2 ^ 40 * Z.abs (w * pw 10 (- e) - m * pw 10 e * U) * pw 10 (- (e - j))).
      + replace (m * U * (pw 10 e * pw 10 (- (e - j)))) with (m * pw 10 e * U * pw 10 (- (e - j))) by ring.
        apply Z.mul_le_mono_nonneg_r; [lia|]. change (2 ^ 52) with (4096 * 2 ^ 40) in HE'.
        assert (0 <= 2 ^ 40 * Z.abs (w * pw 10 (- e) - m * pw 10 e * U)) by (apply Z.mul_nonneg_nonneg; [apply Z.pow_nonneg; lia|apply Z.abs_nonneg]).
        rewrite <- Z.mul_assoc in HE'. lia.
      + assert (AM : forall a c, 0 < c -> Z.abs a * c = Z.abs (a * c)) by (intros a c Hc; rewrite Z.abs_mul, (Z.abs_eq c) by lia; reflexivity).
        rewrite <- (Z.mul_assoc (2 ^ 40)), (AM _ _ HN'), <- (Z.mul_assoc (2 ^ 40)), (AM _ _ HN). f_equal. f_equal. rewrite !Z.mul_sub_distr_r. f_equal; [ring|].
        replace (m * pw 10 e * U * pw 10 (- (e - j))) with (m * U * (pw 10 e * pw 10 (- (e - j)))) by ring. rewrite S. ring. }
  destruct (scan_gen w _ _ G ltac:(lia) ltac:(lia)) as [F SC]. split; [exact F|]. rewrite SC. f_equal. unfold dec_value. change (Z.of_nat 5) with 5.
  replace (e + 5 - j - 5) with (e - j) by lia. apply round_f64_ratio; [nia|lia|nia|lia|].
  replace (m * 10 ^ j * pw 10 (e - j) * pw 10 (- e)) with (m * (10 ^ j * pw 10 (e - j) * pw 10 (- e))) by ring. rewrite <- S. ring.
Qed.

Lemma fmt_g_signed (neg : bool) r w : 0 <= r < 2 ^ 63 -> num64 r = Fin w -> 0 <= w -> fmt_g (sgz neg + r) = sg neg ++ fmt_gen w.
Proof.
  intros Hr Hw H0. unfold fmt_g, with_sign. destruct neg; cbn [sgz sg].
  - rewrite (num64_neg _ _ Hr Hw). rewrite Z.abs_opp, Z.abs_eq by assumption.
    assert (E : (2 ^ 63 + r) / 2 ^ 63 = 1) by (revert Hr; generalize (2 ^ 63); clear; intros q Hq; symmetry; apply (Z.div_unique _ _ _ r); lia).
    rewrite E. reflexivity.
  - rewrite Z.add_0_l, Hw, (Z.div_small r) by assumption. rewrite Z.abs_eq by assumption. reflexivity.
Qed.

Lemma six neg m e : 0 <= m < 10 ^ 6 -> -300 <= e <= 300 ->
  scan_double (fmt_g (literal_bits neg m e)) = Some (literal_bits neg m e).
Proof.
  intros Hm He. unfold literal_bits. fold (sgz neg) (pw 10 e) (pw 10 (- e)).
  destruct (Z.eq_dec m 0) as [->|].
  - rewrite Z.mul_0_l. change (round_f64 0 (pw 10 (- e))) with 0. destruct neg; reflexivity.
  - destruct (six_pos m e ltac:(lia) He) as (w & Ew & Hw & Hb & F & SC).
    rewrite (fmt_g_signed _ _ _ Hb Ew) by lia. rewrite scan_signed, SC by exact F. reflexivity.
Qed.

Lemma tail_literal e : Z.abs e < 1000 -> tail ("e" ++ fmt_i e) e.
Proof.
  intros He. split; [reflexivity|]. split; [|cbn; discriminate]. cbn [append].
  unfold exponent. change (lower "e" =? 101) with true. cbv iota.
  assert (ES : sign (fmt_i e) = (e <? 0, show 10 (Z.abs e))).
  { unfold fmt_i. destruct (e <? 0) eqn:E; zcmp.
    - rewrite <- Z.abs_neq by lia. reflexivity.
    - rewrite Z.abs_eq by lia. apply digit_not_ws. apply (show_first 9); lia. }
  rewrite ES.
  destruct (show_digits 9 (Z.abs e) "" 0 0 ltac:(change (10 ^ Z.of_nat 10) with 10000000000; lia)) as (L & HL & D). rewrite append_nil_r in D. rewrite D.
  cbn [digits]. destruct (0 + L =? 0)%nat eqn:E; [apply Nat.eqb_eq in E; lia|]. rewrite Z.mul_0_l, Z.add_0_l.
  destruct (e <? 0) eqn:E'; zcmp; f_equal; lia.
Qed.

Lemma scan_literal neg m e : 0 <= m < 10 ^ 6 -> -300 <= e <= 300 -> scan_double (literal neg m e) = Some (literal_bits neg m e).
Proof.
  intros Hm He. unfold literal, literal_bits. fold (sg neg) (sgz neg).
  assert (E : fmt_i m = show 10 m) by (unfold fmt_i; destruct (m <? 0) eqn:E; zcmp; [lia|reflexivity]).
  rewrite E. destruct (scan_general 9 0 m 0 ("e" ++ fmt_i e) e) as [F S].
  - change (10 ^ 6) with 1000000 in Hm. change (10 ^ Z.of_nat 10) with 10000000000. lia.
  - change (10 ^ Z.of_nat 0) with 1. lia.
  - apply tail_literal. lia.
  - cbn [fraction] in F, S. cbn [append] in F, S |- *. rewrite scan_signed by exact F. rewrite S. unfold dec_value, pw.
    change (10 ^ Z.of_nat 0) with 1. rewrite Z.mul_1_r, Z.add_0_r. change (Z.of_nat 0) with 0. rewrite Z.sub_0_r. reflexivity.
Qed.

(** ** Whole numbers *)

Lemma fraction_zero k : fraction k 0 = "".
Proof. induction k; [reflexivity|]. cbn [fraction]. exact IHk. Qed.
Lemma show_acc_fuel f : forall g n acc, 0 <= n < 10 ^ Z.of_nat (S f) -> show_acc (S f + g) n acc = show_acc (S f) n acc.
Proof.
  induction f as [|f IH]; intros g n acc Hn.
  - cbn [plus show_acc]. change (10 ^ Z.of_nat 1) with 10 in Hn. destruct (n <? 10) eqn:E; zcmp; [reflexivity|lia].
  - change (S (S f) + g)%nat with (S (S f + g)). cbn [show_acc]. destruct (n <? 10) eqn:E; zcmp; [reflexivity|].
    apply (IH g). split; [apply Z.div_pos; lia|]. apply Z.div_lt_upper_bound; [lia|].
    rewrite <- Z.pow_succ_r, <- Nat2Z.inj_succ by lia. apply Hn.
Qed.

Lemma whole_pos n : 0 < n < 10 ^ 6 -> fmt_gen (n * U) = show 10 n.
Proof.
  intros Hn. destruct (sig_six n Hn) as (j & Hj & Hm). pose proof U_pos as HU.
  assert (G : gen_pair (n * U) = (n * 10 ^ j, 5 - j)).
  { apply gen_pair_at; [exact Hm| |].
    - split; [nia|]. change (2 ^ 2098) with (2 ^ 1024 * 2 ^ 1074). fold U. apply Z.mul_lt_mono_pos_r; [exact HU|].
      apply Z.lt_trans with (10 ^ 6); [lia|reflexivity].
    - replace (5 - j - 5) with (- j) by lia. rewrite Z.opp_involutive, (pw_nonneg j), (pw_neg (- j)) by lia.
      replace (n * U * 10 ^ j - n * 10 ^ j * U * 1) with 0 by ring. rewrite Z.mul_0_r. rewrite Z.mul_1_r.
      pose proof (Z.pow_pos_nonneg 10 j). nia. }
  unfold fmt_gen. rewrite G. replace (-4 <=? 5 - j) with true by (symmetry; apply Z.leb_le; lia).
  replace (5 - j <? 6) with true by (symmetry; apply Z.ltb_lt; lia). cbn [andb].
  replace (5 - (5 - j)) with j by lia. rewrite Z.div_mul, Z.mod_mul by (apply Z.pow_nonzero; lia). rewrite fraction_zero, append_nil_r.
  symmetry. apply (show_acc_fuel 5 4). change (10 ^ Z.of_nat 6) with (10 ^ 6). lia.
Qed.

Lemma whole b n : num64 b = Fin (n * 2 ^ 1074) -> Z.abs n < 10 ^ 6 -> n <> 0 -> fmt_g b = fmt_i n.
Proof.
  fold U. intros E Hn Hz. pose proof (num64_sign b _ E) as S. pose proof U_pos as HU.
  unfold fmt_g, with_sign. rewrite E, Z.abs_mul, (Z.abs_eq U) by lia. rewrite whole_pos by lia. unfold fmt_i.
  destruct (b / 2 ^ 63 mod 2 =? 0).
  - destruct (n <? 0) eqn:E0; zcmp; [nia|]. rewrite Z.abs_eq by lia. reflexivity.
  - destruct (n <? 0) eqn:E0; zcmp; [|nia]. rewrite Z.abs_neq by lia. reflexivity.
Qed.

(** ** No commas *)

Lemma no_comma_nil : no_comma "".
Proof. intros c []. Qed.
Lemma no_comma_cons c s : b2z c <> 44 -> no_comma s -> no_comma (String c s).
Proof. intros H1 H2 x [<-|Hx]; [exact H1|]. apply H2, Hx. Qed.
Lemma no_comma_app a b : no_comma a -> no_comma b -> no_comma (a ++ b).
Proof.
  induction a as [|c a IH]; cbn [append]; intros Ha Hb; [exact Hb|]. apply no_comma_cons; [apply Ha; now left|].
  apply IH; [|exact Hb]. intros x Hx. apply Ha. now right.
Qed.
Lemma no_comma_digit n s : no_comma s -> no_comma (String (digit (n mod 10)) s).
Proof.
  intros H. apply no_comma_cons; [|exact H]. pose proof (Z.mod_pos_bound n 10 ltac:(lia)). rewrite b2z_digit by lia. lia.
Qed.
Lemma no_comma_show f : forall n acc, no_comma acc -> no_comma (show_acc f n acc).
Proof.
  induction f as [|f IH]; intros n acc H; cbn [show_acc]; [exact H|].
  destruct (n <? 10); [|apply IH]; apply no_comma_digit; exact H.
Qed.
Lemma no_comma_pad k : forall n, no_comma (show_pad k n).
Proof.
  induction k as [|k IH]; intros n; cbn [show_pad]; [apply no_comma_nil|].
  apply no_comma_app; [apply IH|apply no_comma_digit, no_comma_nil].
Qed.
Lemma no_comma_fraction k : forall n, no_comma (fraction k n).
Proof.
  induction k as [|k IH]; intros n; cbn [fraction]; [apply no_comma_nil|].
  destruct (n mod 10 =? 0); [apply IH|]. apply no_comma_cons; [discriminate|apply (no_comma_pad (S k))].
Qed.
Ltac lit := repeat (apply no_comma_cons; [discriminate|]); apply no_comma_nil.
Lemma no_comma_gen v : no_comma (fmt_gen v).
Proof.
  unfold fmt_gen. destruct (gen_pair v) as [m e]. destruct ((-4 <=? e) && (e <? 6)).
  - apply no_comma_app; [apply no_comma_show, no_comma_nil|apply no_comma_fraction].
  - cbv zeta. apply no_comma_app; [apply no_comma_show, no_comma_nil|]. apply no_comma_app; [apply no_comma_fraction|].
    apply no_comma_app; [lit|]. apply no_comma_app; [destruct (e <? 0); lit|]. destruct (_ <? 100); apply no_comma_pad.
Qed.
Lemma no_comma_g b : no_comma (fmt_g b).
Proof.
  unfold fmt_g, with_sign. destruct (num64 b); (apply no_comma_app; [destruct (_ =? 0); lit|]); try lit. apply no_comma_gen.
Qed.
Lemma no_comma_i z : no_comma (fmt_i z).
Proof. unfold fmt_i. destruct (z <? 0); [apply no_comma_app; [lit|]|]; apply no_comma_show, no_comma_nil. Qed.

(** Texts before a comma can be told apart. *)
Lemma comma_cut : forall a b r s, no_comma a -> no_comma b -> a ++ String "," r = b ++ String "," s -> a = b /\ r = s.
Proof.
  induction a as [|c a IH]; intros [|d b] r s Ha Hb E; cbn [append] in E.
  - injection E as ->. now split.
  - injection E as E1 E2. subst d. exfalso. apply (Hb ","%char); [now left|reflexivity].
  - injection E as E1 E2. subst c. exfalso. apply (Ha ","%char); [now left|reflexivity].
  - injection E as E1 E2. subst d. destruct (IH b r s) as [-> ->]; [intros x Hx; apply Ha; now right|intros x Hx; apply Hb; now right|exact E2|now split].
Qed.
