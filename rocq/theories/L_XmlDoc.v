(** What the XML parser makes of a document in any layout. *)

From Coq Require Import ZArith Ascii String List Bool Lia.
From Verif Require Import Base M_Bytes Spec_Xml L_Base L_Text L_Plt M_Scan M_Xml L_Xml L_XmlSeq L_XmlText Spec_XmlDoc.
Import ListNotations.
Open Scope string_scope.
Open Scope Z_scope.

(** ** Values *)

Lemma digit_ref base c d : base = 10 \/ base = 16 -> digit_of base c d -> ref_digit base c = Some d /\ 48 <= b2z c <= 102 /\ b2z c <> 60 /\ b2z c <> 59 /\ 0 <= d.
Proof.
  intros Hb H. unfold ref_digit, digit_of in *. destruct H as [[H ->]|[-> [[H ->]|[H ->]]]].
  - destruct (Z.leb_spec 48 (b2z c)); [|lia]. destruct (Z.leb_spec (b2z c) 57); [|lia]. cbn [andb]. repeat split; lia.
  - destruct (Z.leb_spec 48 (b2z c)); [|lia]. destruct (Z.leb_spec (b2z c) 57); [lia|]. cbn [andb]. change (16 =? 10) with false. cbv iota.
    destruct (Z.leb_spec 97 (b2z c)); [|lia]. destruct (Z.leb_spec (b2z c) 102); [|lia]. cbn [andb]. repeat split; try lia. f_equal. lia.
  - destruct (Z.leb_spec 48 (b2z c)); [|lia]. destruct (Z.leb_spec (b2z c) 57); [lia|]. cbn [andb]. change (16 =? 10) with false. cbv iota.
    destruct (Z.leb_spec 97 (b2z c)); [lia|]. cbn [andb]. destruct (Z.leb_spec 65 (b2z c)); [|lia]. destruct (Z.leb_spec (b2z c) 70); [|lia]. cbn [andb].
    repeat split; try lia. f_equal. lia.
Qed.
Lemma numeral_chars base s n : base = 10 \/ base = 16 -> numeral base s n -> chars (fun c => 48 <= c <= 102 /\ c <> 60 /\ c <> 59) s /\ 0 <= n.
Proof.
  intros Hb. induction 1 as [c d H|s n c d H [IH1 IH2] Hc].
  - destruct (digit_ref base c d Hb H) as (_ & H1 & H2 & H3 & H4). split; [|lia]. apply chars_cons. split; [tauto|apply chars_nil].
  - destruct (digit_ref base c d Hb Hc) as (_ & H1 & H2 & H3 & H4). split; [|destruct Hb as [-> | ->]; lia]. apply chars_app. split; [assumption|].
    apply chars_cons. split; [tauto|apply chars_nil].
Qed.
Lemma list_ascii_app a : forall b, list_ascii_of_string (a ++ b) = (list_ascii_of_string a ++ list_ascii_of_string b)%list.
Proof. induction a as [|c a IH]; intros b; [reflexivity|]. cbn. rewrite IH. reflexivity. Qed.
Lemma umul_mod m d : umul (m mod 2 ^ 32) d = (m * d) mod 2 ^ 32.
Proof. unfold umul, uwrap. rewrite Zmult_mod_idemp_l. reflexivity. Qed.
Lemma ref_numeral base stop s n : base = 10 \/ base = 16 -> stop < 48 \/ 102 < stop -> numeral base s n ->
  forall m u, 0 <= m -> 0 <= u -> m * n < 2 ^ 32 -> u + m * n < 2 ^ 64 ->
  ref_value base stop (rev (list_ascii_of_string s)) (m mod 2 ^ 32) u = Some (u + m * n).
Proof.
  intros Hb Hs. induction 1 as [c d H|s n c d H IH Hc]; intros m u Hm Hu H1 H2.
  - destruct (digit_ref base c d Hb H) as (E & D1 & _ & _ & D2). cbn [list_ascii_of_string rev app ref_value]. rewrite E.
    destruct (Z.eqb_spec (b2z c) stop); [lia|]. f_equal. rewrite umul_mod. rewrite (Z.mod_small (m * d)) by nia. apply Z.mod_small. nia.
  - destruct (digit_ref base c d Hb Hc) as (E & D1 & _ & _ & D2). pose proof (proj2 (numeral_chars base s n Hb H)) as Hn.
    rewrite list_ascii_app, rev_app_distr. cbn [list_ascii_of_string rev app ref_value]. rewrite E.
    destruct (Z.eqb_spec (b2z c) stop); [lia|].
    assert (B : 0 < base) by (destruct Hb; lia).
    assert (P1 : 0 <= m * d) by nia. assert (P2 : 0 <= m * base * n) by nia.
    assert (P3 : m * (base * n + d) = m * base * n + m * d) by ring. rewrite P3 in *.
    rewrite !umul_mod, (Z.mod_small (m * d)), (Z.mod_small (u + m * d)) by lia.
    rewrite IH by nia. f_equal. ring.
Qed.

Lemma encodes_utf8 n x : encodes n x -> utf8 n = x /\ 0 < n < 2 ^ 21 /\ nonul x.
Proof.
  assert (N1 : forall k, 0 < k < 256 -> b2z (z2b k) <> 0) by (intros k Hk; rewrite b2z_z2b; lia).
  assert (M : forall a b, 0 <= b < 64 -> low6 (64 * a + b) = z2b (128 + b)).
  { intros a b Hb. unfold low6. f_equal. f_equal. rewrite Z.add_comm, Z.mul_comm, Z_mod_plus_full. apply Z.mod_small, Hb. }
  assert (D : forall a b, 0 <= b < 64 -> (64 * a + b) / 64 = a).
  { intros a b Hb. rewrite Z.mul_comm, Z.div_add_l by lia. rewrite (Z.div_small b) by lia. lia. }
  intros H. unfold utf8. destruct H as [n H|a b Ha Hb|a b c Ha Hb Hc H|a b c d Ha Hb Hc Hd H].
  - destruct (Z.ltb_spec n 128); [|lia]. split; [reflexivity|]. split; [lia|]. apply chars_cons. split; [apply N1; lia|apply chars_nil].
  - destruct (Z.ltb_spec (64 * a + b) 128); [lia|]. destruct (Z.ltb_spec (64 * a + b) 2048); [|lia]. rewrite D, M by lia.
    split; [reflexivity|]. split; [lia|]. repeat (apply chars_cons; split; [apply N1; lia|]). apply chars_nil.
  - set (n := 4096 * a + 64 * b + c) in *. destruct (Z.ltb_spec n 128); [lia|]. destruct (Z.ltb_spec n 2048); [lia|]. destruct (Z.ltb_spec n 65536); [|lia].
    change 4096 with (64 * 64) at 1. rewrite <- Z.div_div by lia.
    assert (En : n = 64 * (64 * a + b) + c) by lia. rewrite En, !D, !M by lia.
    split; [reflexivity|]. split; [lia|]. repeat (apply chars_cons; split; [apply N1; lia|]). apply chars_nil.
  - set (n := 262144 * a + 4096 * b + 64 * c + d) in *. destruct (Z.ltb_spec n 128); [lia|]. destruct (Z.ltb_spec n 2048); [lia|]. destruct (Z.ltb_spec n 65536); [lia|].
    destruct (Z.ltb_spec n 2097152); [|lia].
    change 262144 with (64 * (64 * 64)) at 1. change 4096 with (64 * 64) at 1. rewrite <- !Z.div_div by lia.
    assert (En : n = 64 * (64 * (64 * a + b) + c) + d) by lia. rewrite En, !D, !M by lia.
    split; [reflexivity|]. split; [lia|]. repeat (apply chars_cons; split; [apply N1; lia|]). apply chars_nil.
Qed.

Lemma cooked_chars raw v : cooked raw v -> chars (fun n => n <> 0 /\ n <> 13 /\ n <> 60) raw /\ nonul v.
Proof.
  assert (NC : forall base s n, base = 10 \/ base = 16 -> numeral base s n -> chars (fun n => n <> 0 /\ n <> 13 /\ n <> 60) s).
  { intros base s n Hb H. eapply chars_impl; [|apply (numeral_chars base s n Hb H)]. cbv beta. lia. }
  induction 1 as [|c raw v Hc H [IH1 IH2]|n x raw v Hn H [IH1 IH2]|s n x raw v Hs Hx H [IH1 IH2]|s n x raw v Hs Hx H [IH1 IH2]].
  - split; apply chars_nil.
  - unfold plain in Hc. split; apply chars_cons; (split; [tauto|assumption]).
  - cbn [entity_names In] in Hn.
    split; [|apply chars_app; split; [|exact IH2]].
    + cbn [append]. apply chars_cons. split; [cbn; lia|]. apply chars_app. split.
      * repeat (destruct Hn as [[= <- <-]|Hn]; [repeat (apply chars_cons; split; [cbn; lia|]); apply chars_nil|]). destruct Hn.
      * cbn [append]. apply chars_cons. split; [cbn; lia|exact IH1].
    + repeat (destruct Hn as [[= <- <-]|Hn]; [apply lit_nonul; reflexivity|]). destruct Hn.
  - split; [|apply chars_app; split; [apply (encodes_utf8 n x Hx)|exact IH2]].
    cbn [append]. repeat (apply chars_cons; split; [cbn; lia|]). apply chars_app. split; [apply (NC 10 s n); auto|].
    cbn [append]. apply chars_cons. split; [cbn; lia|exact IH1].
  - split; [|apply chars_app; split; [apply (encodes_utf8 n x Hx)|exact IH2]].
    cbn [append]. repeat (apply chars_cons; split; [cbn; lia|]). apply chars_app. split; [apply (NC 16 s n); auto|].
    cbn [append]. apply chars_cons. split; [cbn; lia|exact IH1].
Qed.

Lemma ref_dec s n x r : numeral 10 s n -> encodes n x -> char_ref (s ++ ";" ++ r) = Some (x, r).
Proof.
  intros Hs Hx. destruct (encodes_utf8 n x Hx) as (Hu & Hn & _). pose proof (proj1 (numeral_chars 10 s n (or_introl eq_refl) Hs)) as Hc.
  unfold char_ref. destruct (s ++ ";" ++ r) as [|c p] eqn:E; [destruct s; discriminate|].
  assert (b2z c <> 120).
  { destruct s as [|d s]; injection E as <- _; [cbn; lia|]. apply chars_cons in Hc. destruct Hc as [Hc _]. lia. }
  destruct (Z.eqb_spec (b2z c) 120); [contradiction|]. rewrite <- E. cbn [append]. rewrite parse_text_char by (eapply chars_impl; [|exact Hc]; cbv beta; cbn; lia).
  change 1 with (1 mod 2 ^ 32). rewrite (ref_numeral 10 35 s n) by (auto; lia). rewrite Z.mul_1_l, Z.add_0_l, Hu. reflexivity.
Qed.
Lemma ref_hex s n x r : numeral 16 s n -> encodes n x -> char_ref ("x" ++ s ++ ";" ++ r) = Some (x, r).
Proof.
  intros Hs Hx. destruct (encodes_utf8 n x Hx) as (Hu & Hn & _). pose proof (proj1 (numeral_chars 16 s n (or_intror eq_refl) Hs)) as Hc.
  unfold char_ref. cbn [append]. change (b2z "x" =? 120) with true. cbv iota. rewrite parse_text_char by (eapply chars_impl; [|exact Hc]; cbv beta; cbn; lia).
  change 1 with (1 mod 2 ^ 32). rewrite (ref_numeral 16 120 s n) by (auto; lia). rewrite Z.mul_1_l, Z.add_0_l, Hu. reflexivity.
Qed.

Lemma flush_step f ent c p1 q : flush (S f) ent (String c p1) q =
  if b2z c =? 13 then String LF (flush f ent (skip_one LF p1) (tail q))
  else if b2z c =? 10 then String LF (flush f ent (skip_one CR p1) (tail q))
  else if ent && (b2z c =? 38) then
    if at_ "#" p1 then
      match char_ref (tail p1) with
      | None => String c (flush f ent p1 (tail q))
      | Some (out, r) => out ++ flush f ent r (drop (String.length out) q)
      end
    else
      match find_entity entities p1 with
      | Some (v, r) => String v (flush f ent r (tail q))
      | None => String (head_or c q) (flush f ent p1 (tail q))
      end
  else String c (flush f ent p1 (tail q)).
Proof. reflexivity. Qed.

Lemma no_cr s : chars (fun n => n <> 13) s -> skip_one CR s = s.
Proof.
  destruct s as [|d s]; [reflexivity|]. intros H. apply chars_cons in H. destruct H as [H _]. cbn [skip_one]. change (b2z CR) with 13.
  destruct (b2z d =? 13) eqn:E; [apply Z.eqb_eq in E; contradiction|reflexivity].
Qed.
Lemma lf_is c : b2z c = 10 -> c = LF.
Proof. intros E. rewrite <- (z2b_b2z c), E. reflexivity. Qed.

Lemma flush_cooked raw v : cooked raw v -> forall f q, (slen raw <= f)%nat -> flush f true raw q = v.
Proof.
  induction 1 as [|c raw v Hc H IH|n x raw v Hn H IH|s n x raw v Hs Hx H IH|s n x raw v Hs Hx H IH]; intros f q Hf.
  - destruct f; reflexivity.
  - destruct f as [|f]; [cbn in Hf; lia|]. cbn [slen] in Hf. rewrite flush_step. unfold plain in Hc.
    destruct (b2z c =? 13) eqn:E1; [apply Z.eqb_eq in E1; lia|].
    destruct (b2z c =? 10) eqn:E2.
    { apply Z.eqb_eq, lf_is in E2. subst c. rewrite no_cr by (eapply chars_impl; [|apply (cooked_chars _ _ H)]; cbv beta; tauto).
      rewrite IH by lia. reflexivity. }
    destruct (b2z c =? 38) eqn:E3; [apply Z.eqb_eq in E3; lia|]. cbn [andb]. rewrite IH by lia. reflexivity.
  - destruct f as [|f]; [cbn in Hf; lia|].
    assert (L : (slen raw <= f)%nat).
    { cbn [append slen] in Hf. rewrite !length_append in Hf. cbn [append slen] in Hf. lia. }
    cbn [append]. rewrite flush_step. change (b2z "&" =? 13) with false. change (b2z "&" =? 10) with false. change (b2z "&" =? 38) with true. cbn [andb].
    cbn [entity_names In] in Hn.
    repeat (destruct Hn as [[= <- <-]|Hn];
      [cbn [append]; rewrite at_diff by (cbn; discriminate); unfold entities, find_entity;
       rewrite ?at_cons, ?at_nil, ?at_diff by (cbn; discriminate); rewrite ?at_cons, ?at_diff by (cbn; discriminate); cbn [drop slen]; rewrite IH by exact L; reflexivity|]).
    destruct Hn.
  - destruct f as [|f]; [cbn in Hf; lia|].
    assert (L : (slen raw <= f)%nat).
    { cbn [append slen] in Hf. rewrite !length_append in Hf. cbn [append slen] in Hf. lia. }
    cbn [append]. rewrite flush_step. change (b2z "&" =? 13) with false. change (b2z "&" =? 10) with false. change (b2z "&" =? 38) with true. cbn [andb].
    rewrite at_cons, at_nil. change (tail (String "#" (s ++ String ";" raw))) with (s ++ ";" ++ raw). rewrite (ref_dec s n x raw Hs Hx), IH by exact L. reflexivity.
  - destruct f as [|f]; [cbn in Hf; lia|].
    assert (L : (slen raw <= f)%nat).
    { cbn [append slen] in Hf. rewrite !length_append in Hf. cbn [append slen] in Hf. lia. }
    cbn [append]. rewrite flush_step. change (b2z "&" =? 13) with false. change (b2z "&" =? 10) with false. change (b2z "&" =? 38) with true. cbn [andb].
    rewrite at_cons, at_nil. change (tail (String "#" (String "x" (s ++ String ";" raw)))) with ("x" ++ s ++ ";" ++ raw). rewrite (ref_hex s n x raw Hs Hx), IH by exact L. reflexivity.
Qed.
Lemma get_str_cooked raw v : cooked raw v -> get_str true raw = v.
Proof. intros H. unfold get_str. rewrite (flush_cooked raw v H) by lia. apply c_str_id, (cooked_chars _ _ H). Qed.

Lemma flush_raw : forall f s q, (slen s <= f)%nat -> raw_text s -> flush f false s q = s.
Proof.
  induction f as [|f IH]; intros [|c s] q Hf H; [reflexivity|cbn in Hf; lia|reflexivity|].
  apply chars_cons in H. destruct H as [(H0 & H1) H4]. cbn [slen] in Hf. rewrite flush_step.
  destruct (b2z c =? 13) eqn:E1; [apply Z.eqb_eq in E1; contradiction|].
  destruct (b2z c =? 10) eqn:E2.
  { apply Z.eqb_eq, lf_is in E2. subst c. rewrite no_cr by (eapply chars_impl; [|exact H4]; cbv beta; tauto). rewrite IH by (assumption || lia). reflexivity. }
  cbn [andb]. rewrite IH by (assumption || lia). reflexivity.
Qed.
Lemma raw_nonul s : raw_text s -> nonul s.
Proof. apply chars_impl. tauto. Qed.
Lemma get_str_raw s : raw_text s -> get_str false s = s.
Proof. intros H. unfold get_str. rewrite flush_raw by (assumption || lia). apply c_str_id, raw_nonul, H. Qed.

(** ** The end of a text *)

Lemma prefix_cut e : forall s x r, (slen e <= slen s)%nat -> s ++ x = e ++ r -> exists b, s = e ++ b /\ r = b ++ x.
Proof.
  induction e as [|c e IH]; intros s x r L E; [exists s; split; [reflexivity|symmetry; exact E]|].
  destruct s as [|d s]; [cbn in L; lia|]. cbn [append] in E. injection E as -> E. cbn [slen] in L.
  destruct (IH s x r ltac:(lia) E) as (b & -> & ->). exists b. split; reflexivity.
Qed.
Lemma parse_text_first e x : e <> "" -> forall t, ends_first e t -> parse_text e (t ++ e ++ x) = Some (t, x).
Proof.
  intros He. induction t as [|c t IH]; intros H.
  - cbn [append]. destruct (e ++ x) as [|c r] eqn:E; [destruct e; [contradiction|discriminate]|]. cbn [parse_text]. rewrite <- E, at_app, drop_app. reflexivity.
  - cbn [append parse_text]. destruct (at_ e (String c (t ++ e ++ x))) eqn:A.
    + exfalso. apply at_split in A. destruct A as [r A].
      assert (E : (String c t ++ e) ++ x = e ++ r) by (cbn [append]; rewrite append_assoc; exact A).
      destruct (prefix_cut e (String c t ++ e) x r ltac:(rewrite length_append; lia) E) as (b & Eb & _).
      pose proof (H "" b Eb) as ->. rewrite append_nil_r in Eb. apply (f_equal slen) in Eb. rewrite length_append in Eb. cbn [slen] in Eb. lia.
    + rewrite IH; [reflexivity|]. intros a b E. apply (H (String c a) b). cbn [append]. rewrite E. reflexivity.
Qed.

(** ** Attributes *)

Lemma attr_parse t a x : attr_layout t a -> parse_attr (t ++ x) = Some (fst a, snd a, x).
Proof.
  intros H. unfold parse_attr. destruct H as [n w1 w2 raw v Hn H1 H2 Hr Hc|n w1 w2 raw v Hn H1 H2 Hr Hc]; cbn [fst snd].
  all: rewrite !append_assoc.
  all: rewrite parse_name_app by (assumption || (destruct w1 as [|c w1]; [reflexivity|]; apply chars_cons in H1; destruct H1 as [H1 _];
        cbn [append nstop]; destruct (name_char c) eqn:E; [apply name_char_2 in E; unfold name2, name1, space in *; lia|reflexivity])).
  all: rewrite skip_ws_app by assumption; cbn [append skip_ws]; change (is_ws "=") with false; cbv iota; change (b2z "=" =? 61) with true; cbv iota.
  all: rewrite skip_ws_app by assumption; cbn [skip_ws].
  - change (is_ws """") with false. cbv iota. change ((b2z """" =? 34) || (b2z """" =? 39)) with true. cbv iota.
    cbn [append]. rewrite parse_text_char by exact Hc. rewrite (get_str_cooked raw v Hr). reflexivity.
  - change (is_ws "'") with false. cbv iota. change ((b2z "'" =? 34) || (b2z "'" =? 39)) with true. cbv iota.
    cbn [append]. rewrite parse_text_char by exact Hc. rewrite (get_str_cooked raw v Hr). reflexivity.
Qed.
Lemma attr_start t a : attr_layout t a -> exists c r, t = String c r /\ name_start c = true.
Proof.
  intros H. destruct H as [n w1 w2 raw v Hn _ _ _ _|n w1 w2 raw v Hn _ _ _ _]; destruct Hn as (c & r & -> & Hc & _);
  eexists c, _; (split; [reflexivity|]); apply name_start_1; exact Hc.
Qed.
Lemma attr_nonul t a : attr_layout t a -> nonul t.
Proof.
  intros H. destruct H as [n w1 w2 raw v Hn H1 H2 Hr _|n w1 w2 raw v Hn H1 H2 Hr _];
  (repeat (apply chars_app; split); try (apply lit_nonul; reflexivity); [apply name_nonul, Hn|apply space_nonul, H1|apply space_nonul, H2|];
   eapply chars_impl; [|apply (cooked_chars _ _ Hr)]; cbv beta; tauto).
Qed.
Lemma attrs_nonul_any t l : attrs_layout t l -> nonul t.
Proof.
  induction 1 as [w H|w t a s l Hw _ Ht H IH]; [apply space_nonul, H|]. apply chars_app. split; [apply space_nonul, Hw|].
  apply chars_app. split; [apply (attr_nonul _ _ Ht)|exact IH].
Qed.
Lemma pattrs_ws acc w x : chars space w -> pattrs acc (w ++ x) = pattrs acc x.
Proof.
  intros Hw. unfold pattrs. rewrite (attrs_fuel (S (slen x)) (S (slen (w ++ x))) acc x) by (rewrite ?length_append; lia).
  rewrite !attrs_step, skip_ws_app by exact Hw. reflexivity.
Qed.
Lemma pattrs_one acc t a x : attr_layout t a -> attribute acc (fst a) = None -> pattrs acc (t ++ x) = pattrs (acc ++ [a]) x.
Proof.
  intros H Ha. pose proof (attr_parse t a x H) as P. destruct (attr_start t a H) as (c & r & -> & Hc). cbn [append] in P |- *.
  pose proof (parse_attr_len _ _ _ _ P) as L.
  unfold pattrs at 1. rewrite attrs_step. rewrite skip_ws_no by (apply name_start_1 in Hc; unfold name1, space in *; lia). rewrite Hc, P, Ha.
  destruct a as [n v]. cbn [fst snd]. unfold pattrs. apply attrs_fuel; lia.
Qed.
Lemma pattrs_any t l : attrs_layout t l -> forall acc x, NoDup (map fst l) -> (forall a, In a l -> attribute acc (fst a) = None) ->
  pattrs acc (t ++ x) = pattrs (acc ++ l) x.
Proof.
  induction 1 as [w H|w t a s l Hw _ Ht H IH]; intros acc x Hd Ha; [rewrite app_nil_r; apply pattrs_ws, H|].
  cbn [map] in Hd. inversion_clear Hd as [|? ? N1 N2].
  rewrite !append_assoc, pattrs_ws by assumption. rewrite (pattrs_one acc t a) by (assumption || (apply Ha; left; reflexivity)).
  rewrite IH; [rewrite <- app_assoc; reflexivity|exact N2|]. intros b Hb. destruct a as [n v]. cbn [fst] in *.
  apply attribute_app; [apply Ha; right; exact Hb|]. intros ->. apply N1. apply in_map_iff. eauto.
Qed.
Lemma layout_stop t l x : attrs_layout t l -> nstop x -> nstop (t ++ x).
Proof.
  intros H Hx. destruct H as [w H|w t a s l Hw Hn _ _].
  - destruct w as [|c w]; [exact Hx|]. apply chars_cons in H. destruct H as [H _]. cbn [append nstop].
    destruct (name_char c) eqn:E; [apply name_char_2 in E; unfold name2, name1, space in *; lia|reflexivity].
  - destruct w as [|c w]; [contradiction|]. apply chars_cons in Hw. destruct Hw as [H _]. cbn [append nstop].
    destruct (name_char c) eqn:E; [apply name_char_2 in E; unfold name2, name1, space in *; lia|reflexivity].
Qed.

(** ** Nodes *)

Lemma node_closed top d n t l x : xml_name n -> attrs_layout t l -> NoDup (map fst l) ->
  parse top d ("<" ++ n ++ t ++ "/>" ++ x) = push (NElem n l []) (parse top false x).
Proof.
  intros Hn Hl Hd. rewrite parse_eq, tag_start by assumption.
  rewrite parse_name_app by (assumption || (apply (layout_stop t l _ Hl); reflexivity)).
  rewrite (pattrs_any t l Hl), pattrs_closed by (auto; intros; reflexivity). reflexivity.
Qed.
Lemma node_open top d n t l q : xml_name n -> attrs_layout t l -> NoDup (map fst l) -> q <> "" ->
  parse top d ("<" ++ n ++ t ++ ">" ++ q) =
    match parse false false q with
    | Fail e => Fail e
    | Done _ None => Fail XML_ERROR_PARSING
    | Done kids (Some (q5, en)) =>
        if String.eqb en n then push (NElem n l kids) (parse top false q5)
        else Fail XML_ERROR_MISMATCHED_ELEMENT
    end.
Proof.
  intros Hn Hl Hd Hq. rewrite parse_eq, tag_start by assumption.
  rewrite parse_name_app by (assumption || (apply (layout_stop t l _ Hl); reflexivity)).
  rewrite (pattrs_any t l Hl), pattrs_open by (auto; intros; reflexivity). cbn [app].
  destruct (String.eqb_spec q ""); [contradiction|reflexivity].
Qed.
Lemma node_close top d n w x : xml_name n -> chars space w -> parse top d ("</" ++ n ++ w ++ ">" ++ x) = Done [] (Some (x, n)).
Proof.
  intros Hn Hw. rewrite parse_eq. change ("</" ++ n ++ w ++ ">" ++ x) with (String "<" (String "/" (n ++ w ++ ">" ++ x))).
  unfold step. cbn [skip_ws]. change (is_ws "<") with false. cbv iota zeta.
  rewrite !at_cons, !at_diff by (cbn; discriminate). rewrite !at_nil.
  cbn [drop]. rewrite skip_ws_no by (cbn; unfold space; lia). rewrite at_cons. rewrite !at_nil. cbn [drop].
  rewrite parse_name_app by (assumption || (apply (layout_stop w []); [constructor; exact Hw|reflexivity])).
  rewrite pattrs_ws, pattrs_open by exact Hw. reflexivity.
Qed.
Lemma skip_ws_mark s x : ~ chars space s -> chars (fun n => n <> 60) s -> exists c r, skip_ws (s ++ x) = String c r /\ b2z c <> 60.
Proof.
  induction s as [|c s IH]; intros H1 H2; [exfalso; apply H1, chars_nil|]. apply chars_cons in H2. destruct H2 as [H2 H3].
  cbn [append skip_ws]. destruct (is_ws c) eqn:E.
  - apply IH; [|assumption]. intros C. apply H1, chars_cons. split; [apply is_ws_space, E|assumption].
  - exists c, (s ++ x). split; [reflexivity|exact H2].
Qed.
Lemma node_text top d raw v r : cooked raw v -> ~ chars space raw -> r <> "" ->
  parse top d (raw ++ "<" ++ r) = push (NText false v) (parse top false ("<" ++ r)).
Proof.
  intros H1 H2 Hr. pose proof (proj1 (cooked_chars _ _ H1)) as HC.
  assert (H3 : chars (fun n => n <> 60) raw) by (eapply chars_impl; [|exact HC]; cbv beta; tauto).
  rewrite parse_eq. unfold step. destruct (skip_ws_mark raw ("<" ++ r) H2 H3) as (c & y & E & Hc). rewrite E. cbv zeta.
  rewrite !at_diff by (cbn; auto). cbn [append]. rewrite parse_text_char by exact H3.
  destruct (String.eqb_spec r ""); [contradiction|]. rewrite (get_str_cooked raw v H1). reflexivity.
Qed.
Lemma node_comment top d t x : raw_text t -> ends_first "-->" t ->
  parse top d ("<!--" ++ t ++ "-->" ++ x) = push (NComment t) (parse top false x).
Proof.
  intros H1 H2. rewrite parse_eq. unfold step. cbn [append]. cbn [skip_ws]. change (is_ws "<") with false. cbv iota zeta.
  rewrite !at_cons, !at_diff by (cbn; discriminate). rewrite !at_nil. cbn [drop].
  change (String "-" (String "-" (String ">" x))) with ("-->" ++ x). rewrite parse_text_first by (assumption || discriminate).
  rewrite get_str_raw by assumption. reflexivity.
Qed.
Lemma node_cdata top d t x : raw_text t -> ends_first "]]>" t ->
  parse top d ("<![CDATA[" ++ t ++ "]]>" ++ x) = push (NText true t) (parse top false x).
Proof.
  intros H1 H2. rewrite parse_eq. unfold step. cbn [append]. cbn [skip_ws]. change (is_ws "<") with false. cbv iota zeta.
  rewrite !at_cons, !at_diff by (cbn; discriminate). rewrite !at_nil. cbn [drop].
  change (String "]" (String "]" (String ">" x))) with ("]]>" ++ x). rewrite parse_text_first by (assumption || discriminate).
  rewrite get_str_raw by assumption. reflexivity.
Qed.
Lemma at_none p s x : ~ starts p (s ++ ">") -> chars (fun n => n <> 62) (p ++ "") -> at_ p (s ++ ">" ++ x) = false.
Proof.
  intros H1 H2. destruct (at_ p (s ++ ">" ++ x)) eqn:A; [exfalso|reflexivity]. apply at_split in A. destruct A as [r A].
  rewrite append_nil_r in H2. apply H1. clear H1. revert s A. induction p as [|c p IH]; intros s A; [exists (s ++ ">"); reflexivity|].
  apply chars_cons in H2. destruct H2 as [H2 H3]. destruct s as [|e s]; cbn [append] in A; injection A as A1 A2.
  - subst c. exfalso. apply H2. reflexivity.
  - subst e. destruct (IH H3 s A2) as [y Ey]. exists y. cbn [append]. rewrite <- Ey. reflexivity.
Qed.
Lemma node_unknown top d t x : raw_text t -> ends_first ">" t -> ~ starts "--" (t ++ ">") -> ~ starts "[CDATA[" (t ++ ">") ->
  parse top d ("<!" ++ t ++ ">" ++ x) = push (NUnknown t) (parse top false x).
Proof.
  intros H1 H2 H3 H4. rewrite parse_eq. unfold step. cbn [append]. cbn [skip_ws]. change (is_ws "<") with false. cbv iota zeta.
  rewrite !at_cons. rewrite (at_diff "?" "!") by (cbn; discriminate). change (String ">" x) with (">" ++ x).
  rewrite (at_none "--"), (at_none "[CDATA[") by (assumption || (repeat (apply chars_cons; split; [cbn; discriminate|]); apply chars_nil)).
  rewrite !at_nil. cbn [drop]. rewrite parse_text_first by (assumption || discriminate). rewrite get_str_raw by assumption. reflexivity.
Qed.
Lemma node_decl t x : raw_text t -> ends_first "?>" t ->
  parse true true ("<?" ++ t ++ "?>" ++ x) = push (NDecl t) (parse true true x).
Proof.
  intros H1 H2. rewrite parse_eq. unfold step. cbn [append]. cbn [skip_ws]. change (is_ws "<") with false. cbv iota zeta.
  rewrite !at_cons. rewrite !at_nil. cbn [drop].
  change (String "?" (String ">" x)) with ("?>" ++ x). rewrite parse_text_first by (assumption || discriminate).
  rewrite get_str_raw by assumption. reflexivity.
Qed.

(** ** Content *)

Lemma content_nonul s l : content s l -> nonul s.
Proof.
  induction 1; repeat (apply chars_app; split); try (apply lit_nonul; reflexivity);
    first [assumption | apply space_nonul; assumption | apply raw_nonul; assumption | apply name_nonul; assumption
          | eapply attrs_nonul_any; eassumption | idtac].
  eapply chars_impl; [|apply (cooked_chars raw v)]; [cbv beta; tauto|assumption].
Qed.

Lemma pushes_done_nil ns r : pushes ns (Done [] r) = Done ns r.
Proof. induction ns as [|a ns IH]; [reflexivity|]. cbn [pushes fold_right]. fold (pushes ns (Done [] r)). rewrite IH. reflexivity. Qed.

(** In front of the end or of a tag. *)
Definition fits (l : list node) (x : string) : Prop :=
  (x = "" /\ Forall (fun n => is_text n = false) l) \/ (exists r, x = "<" ++ r /\ r <> "").
Lemma fits_tail n l x : fits (n :: l) x -> fits l x.
Proof. intros [[H1 H2]|H]; [left; split; [exact H1|inversion H2; assumption]|right; exact H]. Qed.

Lemma content_parse s l : content s l -> forall top d x, fits l x ->
  parse top d (s ++ x) = pushes l (parse top (match l with [] => d | _ => false end) x).
Proof.
  induction 1 as [w Hw|raw v s l Hc Hs Hm H IH|w t s l Hw Ht He H IH|w t s l Hw Ht He H IH|w t s l Hw Ht He Hn1 Hn2 H IH
                 |w n ta a s l Hw Hn Ha Hd H IH|w n ta a tk k w2 s l Hw Hn Ha Hd Hk IHk Hw2 H IH]; intros top d x Hx.
  - cbn [pushes fold_right]. destruct Hx as [[-> _]|(r & -> & _)].
    + rewrite append_nil_r. rewrite !parse_blank by (assumption || apply chars_nil). reflexivity.
    + apply parse_ws; [assumption|]. exists r. reflexivity.
  - pose proof (fits_tail _ _ _ Hx) as Hx'. destruct Hx as [[_ C]|(r & -> & Hr)]; [inversion C; discriminate|].
    rewrite append_assoc. cbn [pushes fold_right]. fold (pushes l (parse top false ("<" ++ r))).
    assert (E : exists y, s ++ "<" ++ r = "<" ++ y /\ y <> "").
    { destruct Hm as [->|[y ->]]; [exists r; split; [reflexivity|exact Hr]|]. exists (y ++ "<" ++ r). split; [reflexivity|]. destruct y; discriminate. }
    destruct E as (y & E & Hy). rewrite E, (node_text top d raw v y Hc Hs Hy), <- E, IH by exact Hx'. destruct l; reflexivity.
  - apply fits_tail in Hx. rewrite !append_assoc, (parse_ws top d w) by (assumption || (eexists; reflexivity)).
    rewrite node_comment, IH by assumption. destruct l; reflexivity.
  - assert (Hx' : fits l x) by (apply fits_tail in Hx; exact Hx). rewrite !append_assoc, (parse_ws top d w) by (assumption || (eexists; reflexivity)).
    rewrite node_cdata, IH by assumption. destruct l; reflexivity.
  - apply fits_tail in Hx. rewrite !append_assoc, (parse_ws top d w) by (assumption || (eexists; reflexivity)).
    rewrite node_unknown, IH by assumption. destruct l; reflexivity.
  - apply fits_tail in Hx. rewrite !append_assoc, (parse_ws top d w) by (assumption || (eexists; reflexivity)).
    rewrite (node_closed top d n ta a), IH by assumption. destruct l; reflexivity.
  - apply fits_tail in Hx. rewrite !append_assoc, (parse_ws top d w) by (assumption || (eexists; reflexivity)).
    rewrite (node_open top d n ta a) by (assumption || (destruct tk; discriminate)).
    rewrite (IHk false false ("</" ++ n ++ w2 ++ ">" ++ s ++ x)) by (right; eexists; split; [reflexivity|discriminate]).
    rewrite node_close, pushes_done_nil, String.eqb_refl, IH by assumption. destruct l; reflexivity.
Qed.

(** ** Documents *)

Lemma content_start s l : content s l -> Forall (fun n => is_text n = false) l -> skip_ws s = "" /\ l = [] \/ exists r, skip_ws s = "<" ++ r.
Proof.
  intros H Hl. destruct H; try (right; rewrite skip_ws_app by assumption; eexists; reflexivity).
  - left. split; [apply skip_ws_blank; assumption|reflexivity].
  - inversion Hl; discriminate.
Qed.
Lemma parse_skip top d p r : skip_ws p = "<" ++ r -> parse top d (skip_ws p) = parse top d p.
Proof.
  intros E. rewrite !parse_eq. apply step_ws; [apply skip_ws_idem|]. exists r. rewrite skip_ws_idem. exact E.
Qed.
Lemma load_any b p r : b = "" \/ b = bom -> nonul p -> skip_ws p = "<" ++ r ->
  load_text (b ++ p) = match parse true true p with Done k _ => inl k | Fail e => inr e end.
Proof.
  intros [-> | ->] N E.
  - cbn [append]. rewrite (load_parse p (skip_ws p) N); [rewrite (parse_skip _ _ p r E); reflexivity| |rewrite E; discriminate].
    rewrite E. reflexivity.
  - rewrite (load_parse (bom ++ p) p); [reflexivity|apply chars_app; split; [apply lit_nonul; reflexivity|exact N]| |intros ->; discriminate E].
    change (skip_ws (bom ++ p)) with (bom ++ p). unfold read_bom. rewrite at_app. reflexivity.
Qed.

Lemma document_loads s l : document s l -> load_text s = inl l.
Proof.
  intros H. destruct H as [b s l Hb Hc Hl Ht|b w t s l Hb Hw Ht He Hc Hl].
  - destruct (content_start s l Hc Ht) as [[_ C]|[r E]]; [contradiction|]. rewrite (load_any b s r Hb (content_nonul _ _ Hc) E).
    rewrite <- (append_nil_r s). rewrite (content_parse s l Hc true true "") by (left; split; [reflexivity|exact Ht]).
    rewrite parse_blank by apply chars_nil. rewrite pushes_done_nil. reflexivity.
  - assert (N : nonul (w ++ "<?" ++ t ++ "?>" ++ s)).
    { repeat (apply chars_app; split); try (apply lit_nonul; reflexivity); [apply space_nonul, Hw|apply raw_nonul, Ht|apply (content_nonul _ _ Hc)]. }
    rewrite (load_any b _ (String "?" (t ++ "?>" ++ s)) Hb N) by (rewrite skip_ws_app by exact Hw; reflexivity).
    rewrite (parse_ws true true w) by (assumption || (eexists; reflexivity)). rewrite node_decl by assumption.
    rewrite <- (append_nil_r s). rewrite (content_parse s l Hc true true "") by (left; split; [reflexivity|exact Hl]).
    rewrite parse_blank by apply chars_nil. rewrite pushes_done_nil. reflexivity.
Qed.

(** Whether declarations are still allowed matters only to declarations. *)
Lemma parse_decls y l r : parse true true y = Done l r -> match l with NDecl _ :: _ => False | _ => True end -> parse true false y = Done l r.
Proof.
  rewrite !parse_eq. unfold step. destruct (skip_ws y) as [|c q]; [auto|]. destruct (at_ "<?" (String c q)).
  - destruct (parse_text "?>" _) as [[t x]|]; [|discriminate]. cbn [andb]. destruct (parse true true x) as [|k o]; cbn [push]; [discriminate|].
    intros [= <- <-] [].
  - intros H _. exact H.
Qed.
