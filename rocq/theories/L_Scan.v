(** Numbers that were printed are read back: integers exactly, [double] up to the printed digits. *)

From Coq Require Import ZArith Ascii String List Bool Lia.
From Verif Require Import Base M_Bytes M_Scan L_Base L_Text L_TecMin L_Plt.
Import ListNotations.
Open Scope string_scope.
Open Scope Z_scope.

Lemma b2z_digit d : 0 <= d < 10 -> b2z (digit d) = 48 + d.
Proof. intros. unfold digit. apply b2z_z2b. lia. Qed.
Lemma is_digit_digit d : 0 <= d < 10 -> is_digit (digit d) = true.
Proof. intros. unfold is_digit. rewrite b2z_digit by assumption. cbv zeta. destruct (48 <=? 48 + d) eqn:A, (48 + d <=? 57) eqn:B; zcmp; try reflexivity; lia. Qed.

Lemma digits_digit d s a k : 0 <= d < 10 -> digits (String (digit d) s) a k = digits s (10 * a + d) (S k).
Proof.
  intros H. cbn [digits]. rewrite is_digit_digit, b2z_digit by assumption. f_equal. lia.
Qed.

Lemma show_acc_digits f : forall n acc a k, 0 <= n < 10 ^ Z.of_nat (S f) ->
  exists L, (1 <= L <= S f)%nat /\ digits (show_acc (S f) n acc) a k = digits acc (a * 10 ^ Z.of_nat L + n) (k + L).
Proof.
  induction f as [|f IH]; intros n acc a k H.
  - exists 1%nat. split; [lia|]. change (10 ^ Z.of_nat 1) with 10 in *. cbn [show_acc].
    rewrite Z.mod_small by lia. destruct (n <? 10) eqn:E; zcmp; [|lia].
    rewrite digits_digit by lia. f_equal; lia.
  - remember (S f) as g. cbn [show_acc]. pose proof (Z.mod_pos_bound n 10 ltac:(lia)) as Hm.
    destruct (n <? 10) eqn:E; zcmp.
    + exists 1%nat. split; [lia|]. change (10 ^ Z.of_nat 1) with 10. rewrite Z.mod_small by lia.
      rewrite digits_digit by lia. f_equal; lia.
    + destruct (IH (n / 10) (String (digit (n mod 10)) acc) a k) as (L & HL & ->).
      { rewrite Nat2Z.inj_succ, Z.pow_succ_r in H by lia. split; [apply Z.div_pos; lia|]. apply Z.div_lt_upper_bound; lia. }
      exists (S L). split; [lia|]. rewrite digits_digit by lia. rewrite Nat2Z.inj_succ, Z.pow_succ_r by lia.
      f_equal; [|lia]. pose proof (Z.div_mod n 10 ltac:(lia)). lia.
Qed.
Lemma show_acc_app f : forall n acc r, show_acc f n acc ++ r = show_acc f n (acc ++ r).
Proof.
  induction f as [|f IH]; intros n acc r; cbn [show_acc]; [reflexivity|].
  destruct (n <? 10); [reflexivity|]. rewrite IH. reflexivity.
Qed.
Lemma show_digits f n r a k : 0 <= n < 10 ^ Z.of_nat (S f) ->
  exists L, (1 <= L <= S f)%nat /\ digits (show (S f) n ++ r) a k = digits r (a * 10 ^ Z.of_nat L + n) (k + L).
Proof. intros H. unfold show. rewrite show_acc_app. cbn [append]. now apply show_acc_digits. Qed.

Lemma show_pad_digits j : forall n r a k, 0 <= n ->
  digits (show_pad j n ++ r) a k = digits r (a * 10 ^ Z.of_nat j + n mod 10 ^ Z.of_nat j) (k + j).
Proof.
  induction j as [|j IH]; intros n r a k H.
  - cbn [show_pad append]. change (10 ^ Z.of_nat 0) with 1. rewrite Z.mod_1_r. f_equal; lia.
  - cbn [show_pad]. rewrite append_assoc. rewrite IH by (apply Z.div_pos; lia). cbn [append].
    pose proof (Z.mod_pos_bound n 10 ltac:(lia)) as Hm. rewrite digits_digit by lia.
    rewrite Nat2Z.inj_succ, Z.pow_succ_r by lia. f_equal; [|lia].
    rewrite Z.rem_mul_r by (try apply Z.pow_pos_nonneg; try lia; apply Z.pow_nonzero; lia). lia.
Qed.

(** The first character. *)
Definition first_is (P : Z -> Prop) (s : string) : Prop := match s with String c _ => P (b2z c) | "" => False end.
Lemma show_acc_first f : forall n acc, 0 <= n -> first_is (fun c => 48 <= c <= 57) (show_acc (S f) n acc).
Proof.
  induction f as [|f IH]; intros n acc H.
  - cbn [show_acc]. pose proof (Z.mod_pos_bound n 10 ltac:(lia)). destruct (n <? 10); cbn [first_is]; rewrite b2z_digit by lia; lia.
  - remember (S f) as g. cbn [show_acc]. pose proof (Z.mod_pos_bound n 10 ltac:(lia)).
    destruct (n <? 10); [cbn [first_is]; rewrite b2z_digit by lia; lia|]. apply IH. apply Z.div_pos; lia.
Qed.
Lemma show_first f n : 0 <= n -> first_is (fun c => 48 <= c <= 57) (show (S f) n).
Proof. apply show_acc_first. Qed.
Lemma first_app P s r : first_is P s -> first_is P (s ++ r).
Proof. destruct s; cbn; [contradiction|auto]. Qed.

Lemma digit_not_ws s : first_is (fun c => 48 <= c <= 57) s -> skip_ws s = s /\ sign s = (false, s).
Proof.
  destruct s as [|c s]; cbn [first_is]; [contradiction|]. intros H. cbn [skip_ws sign]. unfold is_ws.
  destruct (b2z c =? 32) eqn:A, (9 <=? b2z c) eqn:B, (b2z c <=? 13) eqn:C, (b2z c =? 45) eqn:D, (b2z c =? 43) eqn:E; zcmp; try lia; cbn; auto.
Qed.
Lemma minus_sign s : skip_ws (String "-" s) = String "-" s /\ sign (String "-" s) = (true, s).
Proof. split; reflexivity. Qed.

(** What stops a number. *)
Definition stops (r : string) : Prop := match r with String c _ => is_digit c = false | "" => True end.
Lemma digits_stop r a k : stops r -> digits r a k = (a, k, r).
Proof. destruct r as [|c r]; cbn; [reflexivity|]. intros ->. reflexivity. Qed.

Lemma decimal_show (neg : bool) f n r : 0 <= n < 10 ^ Z.of_nat (S f) -> stops r ->
  decimal ((if neg then "-" else "") ++ show (S f) n ++ r) = Some (if neg then - n else n).
Proof.
  intros H Hr. unfold decimal. destruct (show_digits f n r 0 0 H) as (L & HL & E). rewrite (digits_stop r _ _ Hr) in E.
  destruct neg; cbn [append].
  - rewrite (proj1 (minus_sign _)), (proj2 (minus_sign _)), E.
    destruct (0 + L =? 0)%nat eqn:Z; [apply Nat.eqb_eq in Z; lia|]. f_equal; lia.
  - destruct (digit_not_ws (show (S f) n ++ r)) as [-> ->]; [apply first_app, show_first; lia|]. rewrite E.
    destruct (0 + L =? 0)%nat eqn:Z; [apply Nat.eqb_eq in Z; lia|]. f_equal; lia.
Qed.
Lemma decimal_fmt f z : Z.abs z < 10 ^ Z.of_nat (S f) ->
  decimal (if z <? 0 then "-" ++ show (S f) (- z) else show (S f) z) = Some z.
Proof.
  intros H. destruct (z <? 0) eqn:E; zcmp.
  - pose proof (decimal_show true f (- z) "" ltac:(lia) I) as D. rewrite append_nil_r in D. rewrite D. f_equal. lia.
  - pose proof (decimal_show false f z "" ltac:(lia) I) as D. rewrite append_nil_r in D. cbn [append] in D. rewrite D. reflexivity.
Qed.

Lemma scan_int_fmt z : in_int z -> scan_int (fmt_i z) = Ok (Some z).
Proof.
  intros H. unfold scan_int, fmt_i. rewrite (decimal_fmt 9) by (change (10 ^ Z.of_nat 10) with 10000000000; unfold in_int in H; lia).
  rewrite ck_ok by assumption. reflexivity.
Qed.
Lemma scan_unsigned_fmt z : 0 <= z <= INT_MAX -> scan_unsigned (fmt_i z) = Ok (Some z).
Proof.
  intros H. unfold scan_unsigned, fmt_i. rewrite (decimal_fmt 9) by (change (10 ^ Z.of_nat 10) with 10000000000; lia).
  change (2 ^ 32) with 4294967296. destruct (Z.abs z <? 4294967296) eqn:E; zcmp; [|lia]. rewrite Z.mod_small by lia. reflexivity.
Qed.
Lemma strtol_fmt z : - 2 ^ 63 <= z < 2 ^ 63 -> strtol (fmt_li z) = z.
Proof.
  intros H. unfold strtol, fmt_li. rewrite (decimal_fmt 18) by (change (10 ^ Z.of_nat 19) with 10000000000000000000; change (2 ^ 63) with 9223372036854775808 in H; lia).
  change (2 ^ 63) with 9223372036854775808 in *. lia.
Qed.
