(** The JSON reader on texts put together from parts. *)

From Coq Require Import ZArith Ascii String List Bool Lia.
From Verif Require Import Base M_Bytes M_TecZone M_TecFile Spec_Loop Spec_Tec Spec_Plt Spec_Aux Spec_Xml Spec_Json L_Base L_Loop L_TecZone L_TecMin L_Text
  M_Scan L_Scan L_ScanF L_Near L_XmlSeq.
Import ListNotations.
Open Scope string_scope.
Open Scope Z_scope.

Definition blanks (s : string) : Prop := chars (fun n => jws n = true) s.
Lemma skip_blanks w : forall s, blanks w -> jskip (w ++ s) = jskip s.
Proof.
  induction w as [|c w IH]; intros s H; [reflexivity|]. apply chars_cons in H. destruct H as [H1 H2]. cbn [append jskip]. rewrite H1. apply IH, H2.
Qed.

(** A text whose first character after white space is not a closing bracket. *)
Definition opens (s : string) : Prop := exists c q, jskip s = String c q /\ b2z c <> 93 /\ b2z c <> 125.
Lemma skip_app s c q r : jskip s = String c q -> jskip (s ++ r) = String c (q ++ r).
Proof.
  induction s as [|d s IH]; [discriminate|]. cbn [append jskip]. destruct (jws (b2z d)); [exact IH|]. intros [= -> ->]. reflexivity.
Qed.
Lemma opens_app s r : opens s -> opens (s ++ r).
Proof. intros (c & q & E & H). exists c, (q ++ r). split; [apply skip_app, E|exact H]. Qed.
Lemma opens_blanks w s : blanks w -> opens s -> opens (w ++ s).
Proof. intros Hw (c & q & E & H). exists c, q. rewrite skip_blanks by assumption. auto. Qed.

(** What may follow a number. *)
Definition ends (r : string) : Prop :=
  match r with String c _ => ~ (48 <= b2z c <= 57) /\ b2z c <> 46 /\ b2z c <> 101 /\ b2z c <> 69 | "" => True end.
Lemma blanks_end w c s : blanks w -> (~ (48 <= b2z c <= 57) /\ b2z c <> 46 /\ b2z c <> 101 /\ b2z c <> 69) -> ends (w ++ String c s).
Proof.
  intros Hw Hc. destruct w as [|d w]; [exact Hc|]. cbn [append ends]. apply chars_cons in Hw. destruct Hw as [Hw _]. unfold jws in Hw.
  repeat rewrite orb_true_iff in Hw. rewrite !Z.eqb_eq in Hw. lia.
Qed.

(** [s] is read as [o]: [None] means that the reader gives up. *)
Definition res_of {A} (o : option A) (r : string) : option (A * string) := match o with Some v => Some (v, r) | None => None end.
Definition JT (s : string) (o : option json) : Prop :=
  opens s /\ forall n r, (String.length s < n)%nat -> ends r -> jvalue n (s ++ r) = res_of o r.
Definition EL (s : string) (o : option (list json)) : Prop :=
  opens s /\ forall n r, (String.length s < n)%nat -> jelements n (s ++ r) = res_of o r.
Definition MB (s : string) (o : option (list (string * json))) : Prop :=
  opens s /\ forall n r, (String.length s < n)%nat -> jmembers n (s ++ r) = res_of o r.

Lemma value_skip n w s : blanks w -> jvalue n (w ++ s) = jvalue n s.
Proof. intros H. destruct n; [reflexivity|]. cbn [jvalue]. rewrite skip_blanks by assumption. reflexivity. Qed.
Lemma elements_skip n w s : blanks w -> jelements n (w ++ s) = jelements n s.
Proof. intros H. destruct n; [reflexivity|]. cbn [jelements]. rewrite value_skip by assumption. reflexivity. Qed.
Lemma members_skip n w s : blanks w -> jmembers n (w ++ s) = jmembers n s.
Proof. intros H. destruct n; [reflexivity|]. cbn [jmembers]. rewrite skip_blanks by assumption. reflexivity. Qed.
Lemma JT_blanks w s o : blanks w -> JT s o -> JT (w ++ s) o.
Proof.
  intros Hw [H1 H2]. split; [apply opens_blanks; assumption|]. intros n r Hn Hr. rewrite append_assoc, value_skip by assumption. apply H2; [|exact Hr].
  rewrite length_append in Hn. lia.
Qed.
Lemma EL_blanks w s o : blanks w -> EL s o -> EL (w ++ s) o.
Proof.
  intros Hw [H1 H2]. split; [apply opens_blanks; assumption|]. intros n r Hn. rewrite append_assoc, elements_skip by assumption. apply H2.
  rewrite length_append in Hn. lia.
Qed.
Lemma MB_blanks w s o : blanks w -> MB s o -> MB (w ++ s) o.
Proof.
  intros Hw [H1 H2]. split; [apply opens_blanks; assumption|]. intros n r Hn. rewrite append_assoc, members_skip by assumption. apply H2.
  rewrite length_append in Hn. lia.
Qed.

(** ** Strings *)

Lemma chars_read s : forall r, json_text s -> jchars (s ++ Q ++ r) = Some (s, r).
Proof.
  induction s as [|c s IH]; intros r H; [reflexivity|]. apply chars_cons in H. destruct H as [H1 H2]. cbn [append jchars].
  destruct (Z.eqb_spec (b2z c) 34); [lia|]. destruct (Z.ltb_spec (b2z c) 32); [lia|]. destruct (Z.eqb_spec (b2z c) 92); [lia|].
  rewrite IH by assumption. reflexivity.
Qed.
Lemma JT_str s : json_text s -> JT (Q ++ s ++ Q) (Some (JStr s)).
Proof.
  intros H. split; [exists """"%char, (s ++ Q); split; [reflexivity|cbn; lia]|]. intros n r Hn _. destruct n; [lia|].
  rewrite !append_assoc. change (Q ++ s ++ Q ++ r) with (String """" (s ++ Q ++ r)). cbn [jvalue jskip].
  change (jws (b2z """")) with false. cbv iota. change (b2z """" =? 123) with false. change (b2z """" =? 91) with false. change (b2z """" =? 34) with true.
  cbv iota. rewrite chars_read by assumption. reflexivity.
Qed.

(** ** Arrays *)

Definition ocons {A} (a : option A) (l : option (list A)) : option (list A) :=
  match a, l with Some a, Some l => Some (a :: l) | _, _ => None end.

Lemma EL_last s o w : JT s o -> blanks w -> EL (s ++ w ++ "]") (ocons o (Some [])).
Proof.
  intros [H1 H2] Hw. split; [apply opens_app, H1|]. intros n r Hn. destruct n; [lia|]. rewrite !length_append in Hn. cbn [String.length] in Hn.
  cbn [jelements]. rewrite !append_assoc. rewrite H2; [|lia|apply blanks_end; [exact Hw|cbn; lia]].
  destruct o as [v|]; [|reflexivity]. cbn [res_of]. rewrite skip_blanks by assumption. reflexivity.
Qed.
Lemma EL_more s o w t l : JT s o -> blanks w -> EL t l -> EL (s ++ w ++ "," ++ t) (ocons o l).
Proof.
  intros [H1 H2] Hw [_ H3]. split; [apply opens_app, H1|]. intros n r Hn. destruct n; [lia|]. rewrite !length_append in Hn. cbn [String.length] in Hn.
  cbn [jelements]. rewrite !append_assoc. rewrite H2; [|lia|apply blanks_end; [exact Hw|cbn; lia]].
  destruct o as [v|]; [|reflexivity]. cbn [res_of]. rewrite skip_blanks by assumption. cbn [append jskip]. change (jws (b2z ",")) with false. cbv iota.
  change (b2z "," =? 44) with true. cbv iota. rewrite H3 by lia. destruct l; reflexivity.
Qed.
Lemma JT_arr s l : EL s l -> JT ("[" ++ s) (option_map JArr l).
Proof.
  intros [(c & q & E & Hc & _) H]. split; [exists "["%char, s; split; [reflexivity|cbn; lia]|]. intros n r Hn _. destruct n; [lia|].
  cbn [append jvalue jskip]. change (jws (b2z "[")) with false. cbv iota. change (b2z "[" =? 123) with false. change (b2z "[" =? 91) with true. cbv iota.
  rewrite (skip_app _ _ _ r E). destruct (Z.eqb_spec (b2z c) 93); [lia|]. rewrite length_append in Hn. cbn [String.length] in Hn. rewrite H by lia. destruct l; reflexivity.
Qed.

(** ** Objects *)

Definition omem (k : string) (o : option json) : option (string * json) := option_map (pair k) o.
Lemma MB_last w0 k w1 s o w : blanks w0 -> json_text k -> blanks w1 -> JT s o -> blanks w ->
  MB (w0 ++ Q ++ k ++ Q ++ w1 ++ ":" ++ s ++ w ++ "}") (ocons (omem k o) (Some [])).
Proof.
  intros H0 Hk H1 [_ H2] Hw. apply MB_blanks; [exact H0|]. split; [exists """"%char; eexists; split; [reflexivity|cbn; lia]|].
  intros n r Hn. destruct n; [lia|]. rewrite !length_append in Hn. cbn [String.length] in Hn. rewrite !append_assoc.
  set (T := k ++ Q ++ w1 ++ ":" ++ s ++ w ++ "}" ++ r). change (Q ++ T) with (String """" T). cbn [jmembers jskip].
  change (jws (b2z """")) with false. cbv iota. change (b2z """" =? 34) with true. cbv iota. subst T. rewrite chars_read by assumption.
  rewrite skip_blanks by assumption. cbn [append jskip]. change (jws (b2z ":")) with false. cbv iota. change (b2z ":" =? 58) with true. cbv iota.
  rewrite H2; [|lia|apply blanks_end; [exact Hw|cbn; lia]]. destruct o as [v|]; [|reflexivity]. cbn [res_of]. rewrite skip_blanks by assumption. reflexivity.
Qed.
Lemma MB_more w0 k w1 s o w t l : blanks w0 -> json_text k -> blanks w1 -> JT s o -> blanks w -> MB t l ->
  MB (w0 ++ Q ++ k ++ Q ++ w1 ++ ":" ++ s ++ w ++ "," ++ t) (ocons (omem k o) l).
Proof.
  intros H0 Hk H1 [_ H2] Hw [_ H3]. apply MB_blanks; [exact H0|]. split; [exists """"%char; eexists; split; [reflexivity|cbn; lia]|].
  intros n r Hn. destruct n; [lia|]. rewrite !length_append in Hn. cbn [String.length] in Hn. rewrite !append_assoc.
  set (T := k ++ Q ++ w1 ++ ":" ++ s ++ w ++ "," ++ t ++ r). change (Q ++ T) with (String """" T). cbn [jmembers jskip].
  change (jws (b2z """")) with false. cbv iota. change (b2z """" =? 34) with true. cbv iota. subst T. rewrite chars_read by assumption.
  rewrite skip_blanks by assumption. cbn [append jskip]. change (jws (b2z ":")) with false. cbv iota. change (b2z ":" =? 58) with true. cbv iota.
  rewrite H2; [|lia|apply blanks_end; [exact Hw|cbn; lia]]. destruct o as [v|]; [|reflexivity]. cbn [res_of]. rewrite skip_blanks by assumption.
  cbn [append jskip]. change (jws (b2z ",")) with false. cbv iota. change (b2z "," =? 44) with true. cbv iota. rewrite H3 by lia. destruct l; reflexivity.
Qed.
Lemma JT_obj s l : MB s l -> JT ("{" ++ s) (option_map JObj l).
Proof.
  intros [(c & q & E & _ & Hc) H]. split; [exists "{"%char, s; split; [reflexivity|cbn; lia]|]. intros n r Hn _. destruct n; [lia|].
  cbn [append jvalue jskip]. change (jws (b2z "{")) with false. cbv iota. change (b2z "{" =? 123) with true. cbv iota.
  rewrite (skip_app _ _ _ r E). destruct (Z.eqb_spec (b2z c) 125); [lia|]. rewrite length_append in Hn. cbn [String.length] in Hn. rewrite H by lia. destruct l; reflexivity.
Qed.

(** A whole text. *)
Lemma JT_parse s o w : JT s o -> blanks w -> parse_json (s ++ w) = o.
Proof.
  intros [_ H] Hw. unfold parse_json. rewrite H.
  - destruct o as [v|]; [|reflexivity]. cbn [res_of]. rewrite <- (append_nil_r w), skip_blanks by assumption. reflexivity.
  - rewrite length_append. lia.
  - destruct w as [|c w]; [exact I|]. rewrite <- (append_nil_r (String c w)). cbn [append ends]. apply chars_cons in Hw. destruct Hw as [Hw _]. unfold jws in Hw.
    repeat rewrite orb_true_iff in Hw. rewrite !Z.eqb_eq in Hw. lia.
Qed.

(** ** Numbers *)

Lemma jdigits_eq s : forall v k, jdigits s v k = digits s v k.
Proof. induction s as [|c s IH]; intros v k; [reflexivity|]. cbn [jdigits digits]. unfold is_digit. cbv zeta. rewrite IH. reflexivity. Qed.
Lemma ends_stops r : ends r -> stops r.
Proof.
  destruct r as [|c r]; [trivial|]. intros (H & _). unfold stops, is_digit. cbv zeta.
  destruct (Z.leb_spec 48 (b2z c)), (Z.leb_spec (b2z c) 57); try reflexivity. lia.
Qed.
Lemma ends_frac v r : ends r -> jfrac v r = Some (v, O, r).
Proof. destruct r as [|c r]; [reflexivity|]. intros (_ & H & _). cbn [jfrac]. destruct (Z.eqb_spec (b2z c) 46); [contradiction|reflexivity]. Qed.
Lemma ends_exp r : ends r -> jexp r = Some (0, r).
Proof.
  destruct r as [|c r]; [reflexivity|]. intros (_ & _ & H1 & H2). cbn [jexp]. destruct (Z.eqb_spec (b2z c) 101); [contradiction|].
  destruct (Z.eqb_spec (b2z c) 69); [contradiction|reflexivity].
Qed.

(** How many digits [show] gives. *)
Lemma show_acc_count f : forall n acc a k, 0 <= n < 10 ^ Z.of_nat (S f) ->
  exists L, (1 <= L <= S f)%nat /\ ((1 < L)%nat -> 10 ^ (Z.of_nat L - 1) <= n) /\
    digits (show_acc (S f) n acc) a k = digits acc (a * 10 ^ Z.of_nat L + n) (k + L).
Proof.
  induction f as [|f IH]; intros n acc a k H.
  - exists 1%nat. split; [lia|]. split; [lia|]. change (10 ^ Z.of_nat 1) with 10 in *. cbn [show_acc].
    rewrite Z.mod_small by lia. destruct (n <? 10) eqn:E; zcmp; [|lia].
    rewrite digits_digit by lia. f_equal; lia.
  - remember (S f) as g. cbn [show_acc]. pose proof (Z.mod_pos_bound n 10 ltac:(lia)) as Hm.
    destruct (n <? 10) eqn:E; zcmp.
    + exists 1%nat. split; [lia|]. split; [lia|]. change (10 ^ Z.of_nat 1) with 10. rewrite Z.mod_small by lia.
      rewrite digits_digit by lia. f_equal; lia.
    + destruct (IH (n / 10) (String (digit (n mod 10)) acc) a k) as (L & HL & HN & ->).
      { rewrite Nat2Z.inj_succ, Z.pow_succ_r in H by lia. split; [apply Z.div_pos; lia|]. apply Z.div_lt_upper_bound; lia. }
      exists (S L). split; [lia|]. pose proof (Z.div_mod n 10 ltac:(lia)) as ED. split.
      * intros _. rewrite Nat2Z.inj_succ. replace (Z.succ (Z.of_nat L) - 1) with (Z.succ (Z.of_nat L - 1)) by lia. rewrite Z.pow_succ_r by lia.
        destruct (Nat.eq_dec L 1) as [->|NL]; [change (10 ^ (Z.of_nat 1 - 1)) with 1; lia|]. specialize (HN ltac:(lia)). lia.
      * rewrite digits_digit by lia. rewrite Nat2Z.inj_succ, Z.pow_succ_r by lia. f_equal; [|lia]. lia.
Qed.
Lemma show_count f n r : 0 <= n < 10 ^ Z.of_nat (S f) -> stops r ->
  exists L, (1 <= L)%nat /\ jdigits (show (S f) n ++ r) 0 0 = (n, L, r) /\
    ((L =? 0)%nat || ((1 <? L)%nat && (n <? 10 ^ (Z.of_nat L - 1)))) = false.
Proof.
  intros H Hr. unfold show. rewrite jdigits_eq, show_acc_app. cbn [append]. destruct (show_acc_count f n r 0 0 H) as (L & HL & HN & ->).
  exists L. split; [lia|]. split; [rewrite digits_stop by assumption; f_equal; f_equal; lia|].
  destruct (Nat.eqb_spec L 0); [lia|]. cbn [orb]. destruct (Nat.ltb_spec 1 L) as [L1|L1]; [|reflexivity]. cbn [andb]. specialize (HN L1).
  destruct (Z.ltb_spec n (10 ^ (Z.of_nat L - 1))); [lia|reflexivity].
Qed.

Definition unsigned (s : string) (m e : Z) : Prop := first_digit s /\ forall r, ends r -> jnumber (s ++ r) = Some (JNum m e, r).
Lemma first_number s : first_digit s -> jnumber s =
  let '(v, k, s) := jdigits s 0 0 in
  if (k =? 0)%nat || ((1 <? k)%nat && (v <? 10 ^ (Z.of_nat k - 1))) then None else
  match jfrac v s with
  | None => None
  | Some (w, j, s) => match jexp s with None => None | Some (x, s) => Some (JNum w (x - Z.of_nat j), s) end
  end.
Proof.
  destruct s as [|c s]; [contradiction|]. unfold first_digit, first_is. intros H. unfold jnumber. destruct (Z.eqb_spec (b2z c) 45); [lia|]. reflexivity.
Qed.
Lemma minus_number s m e r : first_digit s -> jnumber s = Some (JNum m e, r) -> jnumber ("-" ++ s) = Some (JNum (- m) e, r).
Proof.
  intros H E. rewrite first_number in E by assumption. cbn [append]. unfold jnumber. change (b2z "-" =? 45) with true. cbv iota.
  destruct (jdigits s 0 0) as [[v k] q]. destruct (_ || _); [discriminate|]. destruct (jfrac v q) as [[[w j] p]|]; [|discriminate].
  destruct (jexp p) as [[x y]|]; [|discriminate]. injection E as <- <- <-. reflexivity.
Qed.

Lemma number_value n c s : 48 <= b2z c <= 57 \/ b2z c = 45 -> jvalue (S n) (String c s) = jnumber (String c s).
Proof.
  intros H. cbn [jvalue jskip]. assert (W : jws (b2z c) = false).
  { unfold jws. destruct (Z.eqb_spec (b2z c) 32), (Z.eqb_spec (b2z c) 9), (Z.eqb_spec (b2z c) 10), (Z.eqb_spec (b2z c) 13); try reflexivity; lia. }
  rewrite W. destruct (Z.eqb_spec (b2z c) 123); [lia|]. destruct (Z.eqb_spec (b2z c) 91); [lia|]. destruct (Z.eqb_spec (b2z c) 34); [lia|].
  cbn [jword]. change (b2z "t") with 116. change (b2z "f") with 102. change (b2z "n") with 110.
  destruct (Z.eqb_spec 116 (b2z c)); [lia|]. destruct (Z.eqb_spec 102 (b2z c)); [lia|]. destruct (Z.eqb_spec 110 (b2z c)); [lia|]. reflexivity.
Qed.
Lemma number_opens c s : 48 <= b2z c <= 57 \/ b2z c = 45 -> opens (String c s).
Proof.
  intros H. exists c, s. cbn [jskip]. assert (W : jws (b2z c) = false).
  { unfold jws. destruct (Z.eqb_spec (b2z c) 32), (Z.eqb_spec (b2z c) 9), (Z.eqb_spec (b2z c) 10), (Z.eqb_spec (b2z c) 13); try reflexivity; lia. }
  rewrite W. split; [reflexivity|lia].
Qed.
Lemma JT_num (neg : bool) s m e : unsigned s m e -> JT (sg neg ++ s) (Some (JNum (if neg then - m else m) e)).
Proof.
  intros [F H]. destruct s as [|c s]; [contradiction|]. pose proof F as F'. unfold first_digit, first_is in F. destruct neg; cbn [sg append].
  - split; [apply number_opens; right; reflexivity|]. intros n r Hn Hr. destruct n; [lia|]. cbn [append]. rewrite number_value by (right; reflexivity).
    change (String "-" (String c (s ++ r))) with ("-" ++ (String c s ++ r)). rewrite (minus_number _ m e r); [reflexivity| |apply H, Hr]. apply first_app, F'.
  - split; [apply number_opens; left; lia|]. intros n r Hn Hr. destruct n; [lia|]. cbn [append]. rewrite number_value by (left; lia).
    exact (H r Hr).
Qed.

Lemma show_unsigned f n : 0 <= n < 10 ^ Z.of_nat (S f) -> unsigned (show (S f) n) n 0.
Proof.
  intros H. split; [apply show_first; lia|]. intros r Hr. rewrite first_number by (apply first_app, show_first; lia).
  destruct (show_count f n r H (ends_stops r Hr)) as (L & _ & -> & ->). rewrite ends_frac, ends_exp by assumption. reflexivity.
Qed.
Lemma signed_int f z : Z.abs z < 10 ^ Z.of_nat (S f) -> JT (if z <? 0 then "-" ++ show (S f) (- z) else show (S f) z) (Some (jint z)).
Proof.
  intros H. destruct (Z.ltb_spec z 0).
  - pose proof (JT_num true _ _ _ (show_unsigned f (- z) ltac:(lia))) as E. rewrite Z.opp_involutive in E. exact E.
  - exact (JT_num false _ _ _ (show_unsigned f z ltac:(lia))).
Qed.
Lemma JT_i z : in_int z -> JT (fmt_i z) (Some (jint z)).
Proof. intros H. apply signed_int. change (10 ^ Z.of_nat 10) with 10000000000. unfold in_int in H. lia. Qed.
Lemma JT_li z : - 2 ^ 63 <= z < 2 ^ 63 -> JT (fmt_li z) (Some (jint z)).
Proof. intros H. apply signed_int. change (10 ^ Z.of_nat 19) with 10000000000000000000. change (2 ^ 63) with 9223372036854775808 in H. lia. Qed.

Lemma sci_unsigned m e : 0 <= m < 10 ^ 7 -> Z.abs e < 1000 ->
  unsigned (String (digit (m / 10 ^ 6 mod 10)) ("." ++ show_pad 6 (m mod 10 ^ 6) ++ "e" ++
    (if e <? 0 then "-" else "+") ++ (if Z.abs e <? 100 then show_pad 2 (Z.abs e) else show_pad 3 (Z.abs e)))) m (e - 6).
Proof.
  intros Hm He.
  assert (Hd : 0 <= m / 10 ^ 6 mod 10 < 10) by (apply Z.mod_pos_bound; lia).
  assert (FD : forall r, first_digit (String (digit (m / 10 ^ 6 mod 10)) r)) by (intros r; unfold first_digit, first_is; rewrite b2z_digit by lia; lia).
  split; [apply FD|]. intros r Hr. cbn [append]. rewrite first_number by apply FD.
  rewrite !append_assoc. cbn [append]. rewrite !append_assoc. set (R := String "." _).
  assert (ET : jdigits (String (digit (m / 10 ^ 6 mod 10)) R) 0 0 = (m / 10 ^ 6, 1%nat, R)).
  { rewrite jdigits_eq, digits_digit by lia. rewrite Z.mod_small by (split; [apply Z.div_pos; lia|apply Z.div_lt_upper_bound; [lia|change (10 ^ 6 * 10) with (10 ^ 7); lia]]).
    rewrite digits_stop; [f_equal; f_equal; lia|]. reflexivity. }
  rewrite ET. change ((1 =? 0)%nat || ((1 <? 1)%nat && (m / 10 ^ 6 <? 10 ^ (Z.of_nat 1 - 1)))) with false. cbv iota.
  unfold R. cbn [jfrac]. change (b2z "." =? 46) with true. cbv iota. rewrite jdigits_eq.
  rewrite show_pad_digits by (apply Z.mod_pos_bound; reflexivity). change (Z.of_nat 6) with 6. rewrite Z.mod_mod by (vm_compute; discriminate).
  rewrite digits_stop by reflexivity.
  replace (m / 10 ^ 6 * 10 ^ 6 + m mod 10 ^ 6) with m by (pose proof (Z.div_mod m (10 ^ 6) ltac:(vm_compute; discriminate)); lia).
  change (0 + 6 =? 0)%nat with false. cbv iota.
  cbn [append jexp]. change ((b2z "e" =? 101) || (b2z "e" =? 69)) with true. cbv iota.
  set (D := (if Z.abs e <? 100 then show_pad 2 (Z.abs e) else show_pad 3 (Z.abs e)) ++ r).
  assert (ES : match ((if e <? 0 then "-" else "+") ++ D) with
          | String d r' => if b2z d =? 45 then (true, r') else if b2z d =? 43 then (false, r') else (false, ((if e <? 0 then "-" else "+") ++ D))
          | "" => (false, ((if e <? 0 then "-" else "+") ++ D))
          end = (e <? 0, D)) by (destruct (e <? 0); reflexivity).
  rewrite ES.
  assert (ED : jdigits D 0 0 = (Z.abs e, (if (Z.abs e <? 100)%Z then 2 else 3)%nat, r)).
  { unfold D. rewrite jdigits_eq. destruct (Z.abs e <? 100) eqn:A; zcmp.
    - rewrite (show_pad_digits 2 (Z.abs e) r 0 0) by lia. rewrite digits_stop by (apply ends_stops, Hr).
      rewrite Z.mod_small by (change (10 ^ Z.of_nat 2) with 100; lia). reflexivity.
    - rewrite (show_pad_digits 3 (Z.abs e) r 0 0) by lia. rewrite digits_stop by (apply ends_stops, Hr).
      rewrite Z.mod_small by (change (10 ^ Z.of_nat 3) with 1000; lia). reflexivity. }
  rewrite ED. assert (EK : ((if (Z.abs e <? 100)%Z then 2 else 3) =? 0)%nat = false) by (destruct (Z.abs e <? 100); reflexivity). rewrite EK.
  destruct (e <? 0) eqn:A; zcmp; f_equal; f_equal; f_equal; change (Z.of_nat (0 + 6)) with 6; lia.
Qed.
Lemma fixed_unsigned f p n : (1 <= p)%nat -> 0 <= n -> n / 10 ^ Z.of_nat p < 10 ^ Z.of_nat (S f) ->
  unsigned (show (S f) (n / 10 ^ Z.of_nat p) ++ "." ++ show_pad p (n mod 10 ^ Z.of_nat p)) n (- Z.of_nat p).
Proof.
  intros Hp Hn Hb. set (P := 10 ^ Z.of_nat p) in *. assert (HP : 0 < P) by (apply Z.pow_pos_nonneg; lia).
  assert (Hq : 0 <= n / P) by (apply Z.div_pos; lia).
  assert (FD : forall R, first_digit (show (S f) (n / P) ++ R)) by (intros R; apply first_app; apply (show_first f); assumption).
  split; [apply FD|]. intros r Hr. rewrite append_assoc. rewrite first_number by apply FD. rewrite append_assoc.
  destruct (show_count f (n / P) ("." ++ show_pad p (n mod P) ++ r) ltac:(lia) eq_refl) as (L & _ & -> & ->).
  cbn [append jfrac]. change (b2z "." =? 46) with true. cbv iota. rewrite jdigits_eq.
  rewrite show_pad_digits by apply (Z.mod_pos_bound n P HP). fold P. rewrite Z.mod_mod by lia. rewrite digits_stop by (apply ends_stops, Hr).
  destruct (Nat.eqb_spec (0 + p) 0); [lia|]. rewrite ends_exp by assumption.
  replace (n / P * P + n mod P) with n by (pose proof (Z.div_mod n P ltac:(lia)); lia).
  reflexivity.
Qed.

(** ** [%le] and [%.5lf] *)

(** What is not finite is not read. *)
Definition rd {A} (X : string -> option A -> Prop) (s : string) (P : A -> Prop) (good : Prop) : Prop :=
  exists o, X s o /\ match o with Some j => good /\ P j | None => ~ good end.
Notation reads := (rd JT).

Lemma special_text n r (neg : bool) w : w = "inf" \/ w = "nan" -> jvalue n ((sg neg ++ w) ++ r) = None.
Proof. intros H. destruct n; [reflexivity|]. destruct neg; destruct H as [-> | ->]; reflexivity. Qed.
Lemma special_JT f b : ~ finite b -> JT (with_sign b f) None.
Proof.
  intros H. unfold with_sign. rewrite sg_scan. set (neg := negb _).
  assert (A : exists w, (w = "inf" \/ w = "nan") /\ (match num64 b with NaN => sg neg ++ "nan" | MInf | PInf => sg neg ++ "inf" | Fin v => sg neg ++ f (Z.abs v) end) = sg neg ++ w).
  { destruct (num64 b) as [| |v|] eqn:E; [exists "nan"|exists "inf"|exfalso; apply H; exists v; exact E|exists "inf"]; auto. }
  destruct A as (w & Hw & ->). split.
  - destruct neg; destruct Hw as [-> | ->]; (eexists; eexists; split; [reflexivity|cbn; lia]).
  - intros n r _ _. apply special_text, Hw.
Qed.
Lemma finite_dec b : finite b \/ ~ finite b.
Proof. unfold finite. destruct (num64 b) as [| |v|]; [right|right|left; eauto|right]; intros [w H]; discriminate H. Qed.

Lemma reads_le b : reads (fmt_le b) (says_number b) (finite b).
Proof.
  destruct (finite_dec b) as [[v E]|H]; [|exists None; split; [apply special_JT, H|exact H]].
  unfold fmt_le, with_sign. rewrite E, sg_scan.
  pose proof (num64_bound b v E) as HB. pose proof (num64_sign b v E) as HS.
  rewrite fmt_sci_pair. destruct (sci_pair (Z.abs v)) as [m e] eqn:EP.
  assert (A : 0 <= m < 10 ^ 7 /\ Z.abs e < 1000 /\ 2 * 10 ^ 6 * Z.abs (m * pw 10 (e - 6) * U - Z.abs v * pw 10 (- (e - 6))) <= Z.abs v * pw 10 (- (e - 6))).
  { destruct (Z.eq_dec v 0) as [->|Hv].
    - change (sci_pair (Z.abs 0)) with (0, 0) in EP. injection EP as <- <-. split; [lia|]. split; [lia|]. rewrite !Z.mul_0_l. cbn. lia.
    - destruct (sci_spec (Z.abs v) m e ltac:(lia) EP) as (M & He & _ & ER). auto. }
  destruct A as (M & He & ER). cbv zeta. set (neg := negb (b / 2 ^ 63 mod 2 =? 0)) in *.
  eexists. split; [apply (JT_num neg), sci_unsigned; assumption|]. cbv beta iota. split; [exists v; exact E|].
  exists (if neg then - m else m), (e - 6), v. split; [reflexivity|]. split; [exact E|].
  fold U. unfold pw in ER. set (A := 10 ^ Z.max 0 (e - 6)) in *. set (B := 10 ^ Z.max 0 (- (e - 6))) in *.
  assert (EV : (neg = true /\ v = - Z.abs v) \/ (neg = false /\ v = Z.abs v)).
  { unfold neg. destruct (b / 2 ^ 63 mod 2 =? 0); cbn [negb]; [right|left]; (split; [reflexivity|lia]). }
  destruct EV as [[-> EV]|[-> EV]].
  - replace (- m * A * U - v * B) with (- (m * A * U - Z.abs v * B)) by (rewrite EV at 2; ring). rewrite Z.abs_opp. exact ER.
  - rewrite EV at 1. exact ER.
Qed.
Lemma reads_lf b : reads (fmt_lf 5 b) (says_seconds b) (finite b).
Proof.
  destruct (finite_dec b) as [[v E]|H]; [|exists None; split; [apply special_JT, H|exact H]].
  unfold fmt_lf, with_sign. rewrite E, sg_scan. fold U.
  pose proof (num64_bound b v E) as HB. pose proof (num64_sign b v E) as HS. pose proof U_pos as HU.
  unfold fmt_fixed. change (Z.of_nat 5) with 5. set (T := 10 ^ 5). assert (HT : 0 < T) by reflexivity.
  destruct (round_div_spec (Z.abs v * T) U ltac:(nia) HU) as [N0 NS].
  set (n := round_div (Z.abs v * T) U) in *.
  assert (NM : n <= DMAX * T).
  { apply round_div_up; [nia|assumption|]. replace (DMAX * T * U) with (DMAX * U * T) by ring. apply Z.mul_le_mono_nonneg_r; lia. }
  assert (NQ : n / T < 10 ^ Z.of_nat 400).
  { apply Z.div_lt_upper_bound; [assumption|]. eapply Z.le_lt_trans; [exact NM|]. rewrite Z.mul_comm. apply Z.mul_lt_mono_pos_l; [assumption|].
    apply Z.ltb_lt. vm_compute. reflexivity. }
  set (neg := negb (b / 2 ^ 63 mod 2 =? 0)) in *.
  eexists. split; [apply (JT_num neg), (fixed_unsigned 399 5 n ltac:(lia) N0 NQ)|]. cbv beta iota. split; [exists v; exact E|].
  exists (if neg then - n else n), v. split; [reflexivity|]. split; [exact E|]. fold U.
  assert (EV : (neg = true /\ v = - Z.abs v) \/ (neg = false /\ v = Z.abs v)).
  { unfold neg. destruct (b / 2 ^ 63 mod 2 =? 0); cbn [negb]; [right|left]; (split; [reflexivity|lia]). }
  fold T. destruct EV as [[-> EV]|[-> EV]].
  - replace (- n * U - v * T) with (- (n * U - Z.abs v * T)) by (rewrite EV at 2; ring). rewrite Z.abs_opp. exact NS.
  - rewrite EV. exact NS.
Qed.
