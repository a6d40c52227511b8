(** Numbers as people write them are read as what they say. *)

From Coq Require Import ZArith Ascii String List Bool Lia.
From Verif Require Import Base L_Base M_Bytes Spec_Xml M_Scan L_Text L_Plt L_Scan L_TecMin L_ScanF L_Extract L_Nearest M_Xml L_XmlSeq Spec_XmlDoc Spec_Case.
Import ListNotations.
Open Scope string_scope.
Open Scope Z_scope.

(** The value of digits behind [acc]. *)
Fixpoint dval (acc : Z) (s : string) : Z :=
  match s with "" => acc | String c s' => dval (10 * acc + (b2z c - 48)) s' end.
Definition isd (n : Z) : Prop := 48 <= n <= 57.

Lemma dval_app s : forall acc t, dval acc (s ++ t) = dval (dval acc s) t.
Proof. induction s as [|c s IH]; intros acc t; cbn [append dval]; [reflexivity|apply IH]. Qed.
Lemma chars_head P c s : chars P (String c s) -> P (b2z c) /\ chars P s.
Proof. intros H. split; [apply H; left; reflexivity|intros d Hd; apply H; right; exact Hd]. Qed.
Lemma chars_join P s t : chars P (s ++ t) <-> chars P s /\ chars P t.
Proof.
  induction s as [|c s IH]; cbn [append].
  - split; [intros H; split; [intros d []|exact H]|tauto].
  - split.
    + intros H. apply chars_head in H. destruct H as [H1 H2]. apply IH in H2. split; [|tauto]. intros d [<-|Hd]; [exact H1|]. exact (proj1 H2 d Hd).
    + intros [H1 H2]. apply chars_head in H1. intros d [<-|Hd]; [tauto|]. revert d Hd. apply IH. tauto.
Qed.
Lemma isd_digit c : isd (b2z c) -> is_digit c = true.
Proof. unfold isd, is_digit. cbv zeta. intros H. destruct (48 <=? b2z c) eqn:A, (b2z c <=? 57) eqn:B; zcmp; try reflexivity; lia. Qed.

Lemma digits_run s : chars isd s -> forall r acc k, digits (s ++ r) acc k = digits r (dval acc s) (k + String.length s).
Proof.
  induction s as [|c s IH]; intros H r acc k.
  - cbn [append dval String.length]. f_equal. lia.
  - apply chars_head in H. destruct H as [H1 H2]. cbn [append digits dval String.length]. rewrite (isd_digit c H1), IH by exact H2. f_equal. lia.
Qed.

Lemma numeral_dval s n : numeral 10 s n -> chars isd s /\ dval 0 s = n /\ s <> "" /\ 0 <= n.
Proof.
  assert (D : forall c d, digit_of 10 c d -> isd (b2z c) /\ d = b2z c - 48).
  { intros c d [[H ->]|[H _]]; [split; [exact H|reflexivity]|discriminate H]. }
  induction 1 as [c d H|s n c d H (I1 & I2 & I3 & I4) Hd].
  - destruct (D c d H) as [H1 ->]. split; [intros x [<-|[]]; exact H1|]. split; [cbn [dval]; lia|]. split; [discriminate|unfold isd in H1; lia].
  - destruct (D c d Hd) as [H1 ->]. split; [apply chars_join; split; [exact I1|intros x [<-|[]]; exact H1]|].
    rewrite dval_app, I2. cbn [dval]. split; [lia|]. split; [destruct s; discriminate|unfold isd in H1; lia].
Qed.

(** Blanks and a sign. *)
Definition starts_plain (s : string) : Prop := exists c r, s = String c r /\ is_ws c = false /\ b2z c <> 45 /\ b2z c <> 43.
Lemma sign_read sg neg s : sign_of sg neg -> starts_plain s -> sign (skip_ws (sg ++ s)) = (neg, s).
Proof.
  intros H (c & r & -> & Hw & H1 & H2).
  assert (X : sign (String c r) = (false, String c r)). { cbn [sign]. destruct (b2z c =? 45) eqn:A, (b2z c =? 43) eqn:B; zcmp; try contradiction; reflexivity. }
  destruct H as [[-> ->]|[[->| ->] ->]].
  - reflexivity.
  - reflexivity.
  - cbn [append skip_ws]. rewrite Hw. exact X.
Qed.
Lemma sign_only sg neg s : sign_of sg neg -> starts_plain s -> sign (sg ++ s) = (neg, s).
Proof.
  intros H (c & r & -> & Hw & H1 & H2).
  assert (X : sign (String c r) = (false, String c r)). { cbn [sign]. destruct (b2z c =? 45) eqn:A, (b2z c =? 43) eqn:B; zcmp; try contradiction; reflexivity. }
  destruct H as [[-> ->]|[[->| ->] ->]]; [reflexivity|reflexivity|exact X].
Qed.
Lemma isd_plain c r : isd (b2z c) -> starts_plain (String c r).
Proof.
  unfold isd. intros H. exists c, r. split; [reflexivity|]. split; [|lia]. unfold is_ws. cbv zeta.
  destruct (b2z c =? 32) eqn:A, (9 <=? b2z c) eqn:B, (b2z c <=? 13) eqn:C; zcmp; try lia; reflexivity.
Qed.
Lemma digits_plain s r : chars isd s -> s <> "" -> starts_plain (s ++ r).
Proof. destruct s as [|c s]; [contradiction|]. intros H _. apply chars_head in H. cbn [append]. apply isd_plain. tauto. Qed.

Lemma not_isd_stops r : (forall c s, r = String c s -> ~ isd (b2z c)) -> stops r.
Proof.
  destruct r as [|c r]; cbn [stops]; [trivial|]. intros H. specialize (H c r eq_refl). unfold is_digit, isd in *. cbv zeta.
  destruct (48 <=? b2z c) eqn:A, (b2z c <=? 57) eqn:B; zcmp; try reflexivity; lia.
Qed.

(** Integers. *)
Lemma says_int_scan t n : says_int t n -> in_int n -> scan_int t = Ok (Some n).
Proof.
  intros [w sg neg ds m rest Hw Hs Hd Hr] Hn. destruct (numeral_dval ds m Hd) as (D1 & D2 & D3 & D4).
  unfold scan_int, decimal. rewrite (skip_ws_app w _ Hw), (sign_read sg neg _ Hs (digits_plain ds rest D1 D3)).
  rewrite (digits_run ds D1), (digits_stop rest) by (apply not_isd_stops; intros c s E; exact (Hr c s E)). rewrite D2.
  destruct ds as [|c ds]; [contradiction|]. cbn [String.length]. change (0 + S (String.length ds) =? 0)%nat with false. cbv iota.
  rewrite (ck_ok _ Hn). reflexivity.
Qed.

(** Decimal fractions. *)
Lemma lower_other c : ~ (65 <= b2z c <= 90) -> lower c = b2z c.
Proof. intros H. unfold lower. cbv zeta. destruct (65 <=? b2z c) eqn:A, (b2z c <=? 90) eqn:B; zcmp; try reflexivity; lia. Qed.

Lemma exponent_read ex e rest : exponent_text ex e -> ends_number rest -> exponent (ex ++ rest) = Some e.
Proof.
  intros [|x sg neg ds m Hx Hs Hd] Hr.
  - cbn [append]. destruct rest as [|c r]; [reflexivity|]. specialize (Hr c r eq_refl). unfold space in Hr. cbn [exponent].
    rewrite lower_other by lia. destruct (b2z c =? 101) eqn:A; zcmp; [lia|reflexivity].
  - destruct (numeral_dval ds m Hd) as (D1 & D2 & D3 & D4).
    assert (X : exponent ((x ++ sg ++ ds) ++ rest) = let '(ng, s) := sign (sg ++ ds ++ rest) in let '(v, k, _) := digits s 0 0 in
        if (k =? 0)%nat then None else Some (if ng : bool then - v else v)).
    { rewrite !append_assoc. destruct Hx as [->| ->]; reflexivity. }
    rewrite X, (sign_only sg neg _ Hs (digits_plain ds rest D1 D3)), (digits_run ds D1).
    rewrite (digits_stop rest). 2: { apply not_isd_stops. intros c s E. specialize (Hr c s E). unfold space, isd in *. lia. }
    rewrite D2. destruct ds as [|c ds]; [contradiction|]. reflexivity.
Qed.
Lemma exponent_head ex e rest : exponent_text ex e -> ends_number rest ->
  forall c r, ex ++ rest = String c r -> ~ isd (b2z c) /\ b2z c <> 46.
Proof.
  intros [|x sg neg ds m Hx Hs Hd] Hr c r E.
  - cbn [append] in E. specialize (Hr c r E). unfold space, isd in *. lia.
  - rewrite !append_assoc in E. assert (A : b2z "e" = 101) by reflexivity. assert (B : b2z "E" = 69) by reflexivity.
    unfold isd. destruct Hx as [->| ->]; cbn [append] in E; assert (C : String c r <> "") by discriminate; injection E as E _; rewrite <- E; lia.
Qed.

Lemma not_special s c r : s = String c r -> isd (b2z c) \/ b2z c = 46 -> starts_nocase "inf" s = false /\ starts_nocase "nan" s = false.
Proof.
  intros -> H. cbn [starts_nocase]. rewrite lower_other by (unfold isd in H; lia).
  change (b2z "i") with 105. change (b2z "n") with 110. unfold isd in H.
  assert (A : (105 =? b2z c) = false) by (apply Z.eqb_neq; lia). assert (B : (110 =? b2z c) = false) by (apply Z.eqb_neq; lia).
  rewrite A, B. split; reflexivity.
Qed.

Lemma says_double_scan t neg a b : says_double t neg a b -> scan_double t = Some (sgz neg + round_f64 a b) /\ 0 <= a /\ 0 < b.
Proof.
  intros [w sg ng ip pt fp n ex e rest Hw Hs Hd Hp Hx Hr]. destruct (numeral_dval _ n Hd) as (D1 & D2 & D3 & D4).
  apply chars_join in D1. destruct D1 as [I1 F1]. rewrite dval_app in D2.
  split; [|split; [apply Z.mul_nonneg_nonneg; [exact D4|apply Z.pow_nonneg; lia]|apply Z.pow_pos_nonneg; lia]].
  set (X := ex ++ rest). pose proof (exponent_head ex e rest Hx Hr) as HX. pose proof (exponent_read ex e rest Hx Hr) as EX. fold X in HX, EX.
  assert (SX : stops X). { apply not_isd_stops. intros c s E. exact (proj1 (HX c s E)). }
  assert (HEAD : exists c r, ip ++ pt ++ fp ++ X = String c r /\ (isd (b2z c) \/ b2z c = 46)).
  { destruct ip as [|c ip].
    - destruct Hp as [->|[-> ->]]; [|exfalso; apply D3; reflexivity]. cbn [append]. eexists _, _. split; [reflexivity|right; reflexivity].
    - apply chars_head in I1. cbn [append]. eexists _, _. split; [reflexivity|left; tauto]. }
  destruct HEAD as (c0 & r0 & EH & HH).
  assert (SP : starts_plain (ip ++ pt ++ fp ++ X)).
  { rewrite EH. exists c0, r0. split; [reflexivity|]. unfold isd in HH. split; [|lia]. unfold is_ws. cbv zeta.
    destruct (b2z c0 =? 32) eqn:A, (9 <=? b2z c0) eqn:B, (b2z c0 <=? 13) eqn:C; zcmp; try lia; reflexivity. }
  unfold scan_double. rewrite (skip_ws_app w _ Hw), (sign_read sg ng _ Hs SP).
  destruct (not_special _ c0 r0 EH HH) as [-> ->]. cbv beta iota zeta.
  rewrite (digits_run ip I1).
  destruct Hp as [->|[-> ->]].
  - change (("." ++ fp ++ X)) with (String "." (fp ++ X)). cbn [digits]. change (is_digit ".") with false. cbv iota.
    change (b2z "." =? 46) with true. cbv iota. rewrite (digits_run fp F1), (digits_stop X _ _ SX).
    rewrite D2. cbn [Nat.add].
    destruct ((String.length ip + String.length fp =? 0)%nat) eqn:K.
    { exfalso. apply Nat.eqb_eq in K. apply D3. destruct ip; [|discriminate K]. destruct fp; [reflexivity|discriminate K]. }
    rewrite EX. unfold sgz. do 2 f_equal. do 3 f_equal. lia.
  - cbn [append]. rewrite (digits_stop X _ _ SX). cbn [dval] in D2. cbn [String.length]. rewrite D2.
    assert (K : (0 + String.length ip =? 0)%nat = false).
    { apply Nat.eqb_neq. intros K. apply D3. destruct ip; [reflexivity|discriminate K]. }
    destruct X as [|c r] eqn:EXX.
    + rewrite K, EX. unfold sgz. do 2 f_equal. do 3 f_equal. lia.
    + destruct (HX c r eq_refl) as [_ N]. destruct (b2z c =? 46) eqn:A; zcmp; [contradiction|]. rewrite K, EX. unfold sgz. do 2 f_equal. do 3 f_equal. lia.
Qed.

Lemma round_near neg a b : 0 <= a -> 0 < b -> in_double a b -> nearest (sgz neg + round_f64 a b) neg a b.
Proof.
  intros Ha Hb HM. unfold in_double in HM. fold DMAX in HM. unfold nearest. fold U.
  assert (G : exists w, num64 (round_f64 a b) = Fin w /\ 0 <= round_f64 a b < 2 ^ 63 /\
    forall y v, num64 y = Fin v -> Z.abs (w * b - a * U) <= Z.abs (v * b - a * U)).
  { destruct (Z.eq_dec a 0) as [->|Na].
    - exists 0. split; [reflexivity|]. split; [split; [reflexivity|reflexivity]|]. intros y v _. change (Z.abs (0 * b - 0 * U)) with 0. lia.
    - destruct (round_f64_nearest a b ltac:(lia) Hb HM) as (w & E & _ & R & N). exists w. auto. }
  destruct G as (w & E & R & N). destruct neg.
  - exists (- w). split; [unfold sgz; rewrite (num64_neg_all _ R), E; reflexivity|]. intros y' v' Hv. cbv zeta.
    destruct (finite_neg y' v' Hv) as (y2 & H2). specialize (N y2 (- v') H2). lia.
  - exists w. split; [exact E|]. exact N.
Qed.
