(** Lengths of formatted numbers. *)

From Coq Require Import ZArith Ascii String List Bool Lia.
From Verif Require Import Base M_Bytes L_Base.
Import ListNotations.
Open Scope string_scope.
Open Scope Z_scope.

Lemma length_append a b : String.length (a ++ b) = (String.length a + String.length b)%nat.
Proof. induction a as [|c a IH]; cbn; [reflexivity|]. rewrite IH. reflexivity. Qed.

Lemma append_assoc a b c : (a ++ b) ++ c = a ++ (b ++ c).
Proof. induction a as [|x a IH]; cbn; [reflexivity|]. rewrite IH. reflexivity. Qed.

Lemma append_nil_r a : a ++ "" = a.
Proof. induction a as [|x a IH]; cbn; [reflexivity|]. rewrite IH. reflexivity. Qed.

Lemma show_acc_length fuel : forall n acc, (String.length (show_acc fuel n acc) <= fuel + String.length acc)%nat.
Proof.
  induction fuel as [|f IH]; intros n acc; cbn [show_acc]; [lia|].
  destruct (n <? 10); cbn [String.length]; [lia|]. eapply Nat.le_trans; [apply IH|]. cbn [String.length]. lia.
Qed.
Lemma show_length fuel n : (String.length (show fuel n) <= fuel)%nat.
Proof. unfold show. pose proof (show_acc_length fuel n ""). cbn [String.length] in H. lia. Qed.

(** A number below 10^k has at most k digits. *)
Lemma show_acc_small fuel : forall k n acc, 0 <= n < 10 ^ Z.of_nat (S k) ->
  (String.length (show_acc fuel n acc) <= S k + String.length acc)%nat.
Proof.
  induction fuel as [|f IH]; intros k n acc H; cbn [show_acc]; [lia|].
  destruct (n <? 10) eqn:E; zcmp; [cbn [String.length]; lia|].
  destruct k as [|k]; [cbn in H; lia|].
  eapply Nat.le_trans; [apply (IH k)|].
  - rewrite Nat2Z.inj_succ, Z.pow_succ_r in H by lia. split; [apply Z.div_pos; lia|].
    apply Z.div_lt_upper_bound; lia.
  - cbn [String.length]. lia.
Qed.
Lemma show_small fuel k n : 0 <= n < 10 ^ Z.of_nat (S k) -> (String.length (show fuel n) <= S k)%nat.
Proof. intros H. unfold show. pose proof (show_acc_small fuel k n "" H). cbn [String.length] in *. lia. Qed.

Lemma show_pad_length k : forall n, String.length (show_pad k n) = k.
Proof.
  induction k as [|k IH]; intros n; cbn [show_pad]; [reflexivity|].
  rewrite length_append, IH. cbn [String.length]. lia.
Qed.

Lemma fmt_i_length z : (String.length (fmt_i z) <= 11)%nat.
Proof.
  unfold fmt_i. destruct (z <? 0).
  - rewrite length_append. pose proof (show_length 10 (- z)). cbn [String.length]. lia.
  - pose proof (show_length 10 z). lia.
Qed.
Lemma fmt_li_length z : (String.length (fmt_li z) <= 20)%nat.
Proof.
  unfold fmt_li. destruct (z <? 0).
  - rewrite length_append. pose proof (show_length 19 (- z)). cbn [String.length]. lia.
  - pose proof (show_length 19 z). lia.
Qed.

Lemma with_sign_length b f n :
  (3 <= n)%nat -> (forall v, 0 <= v -> num64 b = Fin v \/ num64 b = Fin (- v) -> (String.length (f v) <= n)%nat) ->
  (String.length (with_sign b f) <= S n)%nat.
Proof.
  intros Hn Hf. unfold with_sign.
  assert (Hs : (String.length (if (b / 2 ^ 63 mod 2 =? 0)%Z then "" else "-") <= 1)%nat) by (destruct (_ =? _); cbn; lia).
  destruct (num64 b) eqn:E; rewrite length_append; cbn [String.length]; try lia.
  specialize (Hf (Z.abs v) ltac:(lia)). assert (String.length (f (Z.abs v)) <= n)%nat; [|lia].
  apply Hf. destruct (Z.abs_spec v) as [[_ ->]|[_ ->]]; [left|right]; [reflexivity|]. rewrite Z.opp_involutive. reflexivity.
Qed.

Lemma fmt_sci_length v : (String.length (fmt_sci v) <= 13)%nat.
Proof.
  unfold fmt_sci. destruct (if v =? 0 then (0, 0) else _) as [m e]. cbn [String.length].
  rewrite !length_append, show_pad_length. cbn [String.length].
  assert (H1 : forall b : bool, String.length (if b then "-" else "+") = 1%nat) by (intros []; reflexivity). rewrite H1.
  assert (H2 : forall b : bool, (String.length (if b then show_pad 2 (Z.abs e) else show_pad 3 (Z.abs e)) <= 3)%nat)
    by (intros []; rewrite show_pad_length; lia).
  specialize (H2 (Z.abs e <? 100)). lia.
Qed.
Lemma fmt_le_length b : (String.length (fmt_le b) <= 14)%nat.
Proof. unfold fmt_le. apply with_sign_length; [lia|]. intros. apply fmt_sci_length. Qed.

Lemma round_div_le a b : 0 <= a -> 0 < b -> 0 <= round_div a b <= a / b + 1.
Proof.
  intros Ha Hb. unfold round_div. pose proof (Z.div_pos a b Ha Hb).
  destruct (_ <? _); [lia|]. destruct (_ <? _); [lia|]. destruct (Z.even _); lia.
Qed.

(** The integer part below 10^k. *)
Lemma fmt_fixed_length p a b k : 0 <= a -> 0 < b -> a < (10 ^ Z.of_nat (S k) - 1) * b ->
  (String.length (fmt_fixed p a b) <= S k + 1 + p)%nat.
Proof.
  intros Ha Hb H. unfold fmt_fixed. cbv zeta. rewrite !length_append, show_pad_length. cbn [String.length].
  set (P := 10 ^ Z.of_nat p) in *. assert (HP : 0 < P) by (apply Z.pow_pos_nonneg; lia).
  set (n := round_div (a * P) b).
  assert (Hn : 0 <= n <= a * P / b + 1) by (apply round_div_le; [nia|assumption]).
  assert (Hs : (String.length (show 400 (n / P)) <= S k)%nat); [|lia].
  apply show_small. split; [apply Z.div_pos; lia|]. set (T := 10 ^ Z.of_nat (S k)) in *.
  assert (a * P / b < (T - 1) * P) by (apply Z.div_lt_upper_bound; nia).
  apply Z.div_lt_upper_bound; nia.
Qed.

Lemma fmt_lf_length p b k : (3 <= S k + 1 + p)%nat ->
  (forall v, num64 b = Fin v -> Z.abs v < (10 ^ Z.of_nat (S k) - 1) * 2 ^ 1074) ->
  (String.length (fmt_lf p b) <= S (S k + 1 + p))%nat.
Proof.
  intros Hk H. unfold fmt_lf. apply with_sign_length; [assumption|].
  intros v Hv Hn. apply fmt_fixed_length; [assumption| |].
  - apply Z.pow_pos_nonneg; lia.
  - destruct Hn as [Hn|Hn]; apply H in Hn; lia.
Qed.

Lemma sprintf_ok cap s : (Z.of_nat (String.length s) < cap) -> sprintf cap s = Ok s.
Proof. intros H. unfold sprintf. destruct (_ <? _) eqn:E; zcmp; [reflexivity|lia]. Qed.
Lemma sprintf_cases cap s : (Z.of_nat (String.length s) < cap /\ sprintf cap s = Ok s) \/
  (cap <= Z.of_nat (String.length s) /\ sprintf cap s = UB).
Proof. unfold sprintf. destruct (_ <? _) eqn:E; zcmp; auto. Qed.

Lemma c_str_length s : (String.length (c_str s) <= String.length s)%nat.
Proof. induction s as [|c s IH]; cbn; [lia|]. destruct (_ =? 0); cbn [String.length]; lia. Qed.

(** ** The exponent of [%le] *)

Lemma exp10_up_spec fuel : forall e a b, 0 < b -> b <= a -> a < 10 ^ Z.of_nat fuel * b ->
  exists n, 0 <= n /\ exp10_up fuel e a b = e + n /\ 10 ^ n * b <= a /\ a < 10 ^ (n + 1) * b.
Proof.
  induction fuel as [|f IH]; intros e a b H0 H1 H2; cbn [exp10_up].
  - change (10 ^ Z.of_nat 0) with 1 in H2. lia.
  - destruct (Z.leb_spec (10 * b) a) as [E|E].
    + destruct (IH (e + 1) a (10 * b)) as (n & N0 & N1 & N2 & N3); [lia|exact E| |].
      { rewrite Nat2Z.inj_succ, Z.pow_succ_r in H2 by lia. lia. }
      exists (n + 1). rewrite N1. rewrite !Z.pow_add_r in * by lia. change (10 ^ 1) with 10 in *. repeat split; lia.
    + exists 0. change (10 ^ (0 + 1)) with 10. change (10 ^ 0) with 1. repeat split; lia.
Qed.
Lemma exp10_down_spec fuel : forall e a b, 0 < a -> b <= a * 10 ^ Z.of_nat fuel ->
  exists n, 0 <= n /\ exp10_down (S fuel) e a b = e - n /\ b <= a * 10 ^ n /\ (0 < n -> a * 10 ^ (n - 1) < b).
Proof.
  induction fuel as [|f IH]; intros e a b H0 H2; cbn [exp10_down]; destruct (Z.leb_spec b a) as [E|E];
    [exists 0; change (10 ^ 0) with 1; split; [lia|]; split; [lia|]; split; [lia|]; intros; lia| |
     exists 0; change (10 ^ 0) with 1; split; [lia|]; split; [lia|]; split; [lia|]; intros; lia|].
  - change (10 ^ Z.of_nat 0) with 1 in H2. lia.
  - destruct (IH (e - 1) (10 * a) b) as (n & N0 & N1 & N2 & N3); [lia| |].
    { rewrite Nat2Z.inj_succ, Z.pow_succ_r in H2 by lia. lia. }
    cbn [exp10_down] in N1. exists (n + 1). rewrite N1. split; [lia|]. split; [lia|].
    rewrite Z.pow_add_r by lia. change (10 ^ 1) with 10. split; [lia|]. intros _.
    replace (n + 1 - 1) with n by lia. destruct (Z.eq_dec n 0) as [->|]; [change (10 ^ 0) with 1; lia|].
    specialize (N3 ltac:(lia)). replace n with (Z.succ (n - 1)) by lia. rewrite Z.pow_succ_r by lia. lia.
Qed.

(** [10^e <= a / b], in integers. *)
Definition le10 (e a b : Z) : Prop := if 0 <=? e then 10 ^ e * b <= a else b <= a * 10 ^ (- e).

(** For each finite [double] the exponent found is the decimal exponent. *)
Lemma exponent_ok v : 0 < v < 2 ^ 2098 ->
  le10 (exp10 v (2 ^ 1074)) v (2 ^ 1074) /\ ~ le10 (exp10 v (2 ^ 1074) + 1) v (2 ^ 1074).
Proof.
  intros [Hv Hv']. unfold exp10.
  assert (B : 0 < 2 ^ 1074) by (apply Z.pow_pos_nonneg; lia).
  assert (B1 : 2 ^ 2098 <= 10 ^ Z.of_nat 400 * 2 ^ 1074) by (apply Z.leb_le; vm_compute; reflexivity).
  assert (B2 : 2 ^ 1074 <= 10 ^ Z.of_nat 399) by (apply Z.leb_le; vm_compute; reflexivity).
  revert B B1 B2. generalize (2 ^ 1074). intros b B B1 B2.
  destruct (Z.leb_spec b v) as [E|E].
  - destruct (exp10_up_spec 400 0 v b) as (n & N0 & -> & N1 & N2); [assumption|assumption|eapply Z.lt_le_trans; eassumption|]. clear B1 B2 Hv'.
    unfold le10. rewrite (proj2 (Z.leb_le 0 (0 + n))), (proj2 (Z.leb_le 0 (0 + n + 1))) by lia.
    replace (0 + n) with n by lia. split; lia.
  - destruct (exp10_down_spec 399 0 v b) as (n & N0 & -> & N1 & N2); [assumption|revert B2; generalize (10 ^ Z.of_nat 399); clear -Hv B; intros p Hp; nia|]. clear B1 B2 Hv'.
    assert (N3 : n <> 0) by (intros ->; change (10 ^ 0) with 1 in N1; lia).
    specialize (N2 ltac:(lia)). unfold le10. rewrite (proj2 (Z.leb_gt 0 (0 - n))) by lia.
    replace (- (0 - n)) with n by lia. split; [exact N1|].
    destruct (Z.leb_spec 0 (0 - n + 1)) as [L|L].
    + replace n with 1 in * by lia. change (10 ^ (0 - 1 + 1)) with 1. lia.
    + replace (- (0 - n + 1)) with (n - 1) by lia. lia.
Qed.
