(** What a document is that the XML parser has loaded. *)

From Coq Require Import ZArith Ascii String List Bool Lia.
From Verif Require Import Base M_Bytes Spec_Xml L_Base L_Text L_Plt M_Scan M_Xml L_Xml L_XmlSeq L_XmlText Spec_XmlDoc L_XmlDoc Spec_Save.
From Verif Require L_Aux.
Import ListNotations.
Open Scope string_scope.
Open Scope Z_scope.

(** ** Values between marks *)

Lemma text_ends_first e : e <> "" -> forall p t r, parse_text e p = Some (t, r) -> ends_first e t.
Proof.
  intros He. induction p as [|c p IH]; intros t r H; [discriminate|]. cbn [parse_text] in H.
  destruct (at_ e (String c p)) eqn:A.
  - injection H as <- _. intros a b E. cbn [append] in E. apply (f_equal slen) in E. rewrite !length_append in E. destruct b; [reflexivity|cbn [slen] in E; lia].
  - destruct (parse_text e p) as [[t' r']|] eqn:E; [|discriminate]. injection H as <- <-. intros a b X. destruct a as [|x a].
    + exfalso. apply parse_text_split in E. subst p. cbn [append] in X. rewrite <- append_assoc in A.
      change (String c ((t' ++ e) ++ r')) with (String c (t' ++ e) ++ r') in A. rewrite X, append_assoc in A.
      rewrite at_app in A. discriminate.
    + cbn [append] in X. injection X as _ X. exact (IH t' r' eq_refl a b X).
Qed.

Definition smooth (s : string) : Prop := chars (fun n => n <> 0 /\ n <> 10 /\ n <> 13) s.

Lemma flush_cons f c p q : flush (S f) false (String c p) q =
  if b2z c =? 13 then String LF (flush f false (skip_one LF p) (tail q))
  else if b2z c =? 10 then String LF (flush f false (skip_one CR p) (tail q)) else String c (flush f false p (tail q)).
Proof. reflexivity. Qed.
Lemma flush_nil f q : flush f false "" q = "".
Proof. destruct f; reflexivity. Qed.
Lemma skip_one_split c p : skip_one c p = p \/ p = String c (skip_one c p).
Proof.
  destruct p as [|d p]; [left; reflexivity|]. cbn [skip_one]. destruct (Z.eqb_spec (b2z d) (b2z c)) as [E|]; [right|left; reflexivity].
  f_equal. apply L_Aux.b2z_inj, E.
Qed.
Lemma skip_one_len c p : (slen (skip_one c p) <= slen p)%nat.
Proof. destruct (skip_one_split c p) as [->|E]; [lia|]. rewrite E at 2. cbn [slen]. lia. Qed.
Lemma skip_one_chars P c p : chars P p -> chars P (skip_one c p).
Proof. intros H. destruct (skip_one_split c p) as [->|E]; [exact H|]. rewrite E in H. apply chars_cons in H. apply H. Qed.

(** Where a part without line ends comes from. *)
Lemma flush_prefix e : smooth e -> forall f p q x, (slen p <= f)%nat -> flush f false p q = e ++ x ->
  exists y g z, p = e ++ y /\ x = flush g false y z /\ (slen y <= g)%nat.
Proof.
  induction e as [|a e IH]; intros S f p q x L H; [exists p, f, q; cbn [append] in *; auto|].
  apply chars_cons in S. destruct S as [(S0 & S1 & S2) S]. destruct p as [|c p]; [rewrite flush_nil in H; discriminate|].
  destruct f as [|f]; [cbn [slen] in L; lia|]. rewrite flush_cons in H. cbn [slen append] in *.
  destruct (Z.eqb_spec (b2z c) 13) as [E|E]; [injection H as H0 _; subst a; contradiction S1; reflexivity|].
  destruct (Z.eqb_spec (b2z c) 10) as [E'|E']; [injection H as H0 _; subst a; contradiction S1; reflexivity|].
  injection H as <- H. destruct (IH S f p (tail q) x) as (y & g & z & -> & Y & G); [lia|exact H|]. exists y, g, z. auto.
Qed.
Lemma flush_part e : smooth e -> forall a f p q b, (slen p <= f)%nat -> flush f false p q = a ++ e ++ b ->
  exists a' y g z, p = a' ++ e ++ y /\ b = flush g false y z.
Proof.
  intros S. induction a as [|x a IH]; intros f p q b L H.
  - destruct (flush_prefix e S f p q b L H) as (y & g & z & E & Y & _). exists "", y, g, z. auto.
  - destruct p as [|c p]; [rewrite flush_nil in H; discriminate|]. destruct f as [|f]; [cbn [slen] in L; lia|]. rewrite flush_cons in H. cbn [slen append] in *.
    assert (R : forall p1 q1, (slen p1 <= f)%nat -> (exists w, p = w ++ p1) -> flush f false p1 q1 = a ++ e ++ b ->
      exists a' y g z, String c p = a' ++ e ++ y /\ b = flush g false y z).
    { intros p1 q1 L1 [w ->] H1. destruct (IH f p1 q1 b L1 H1) as (a' & y & g & z & -> & Y). exists (String c (w ++ a')), y, g, z.
      split; [|exact Y]. cbn [append]. rewrite append_assoc. reflexivity. }
    assert (W : forall d, exists w, p = w ++ skip_one d p).
    { intros d. destruct (skip_one_split d p) as [->|E]; [exists ""; reflexivity|]. exists (String d ""). exact E. }
    pose proof (skip_one_len LF p). pose proof (skip_one_len CR p).
    destruct (b2z c =? 13); [injection H as _ H; eapply R; [|apply W|exact H]; lia|].
    destruct (b2z c =? 10); [injection H as _ H; eapply R; [|apply W|exact H]; lia|].
    injection H as _ H. eapply R; [|exists ""; reflexivity|exact H]. lia.
Qed.
Lemma skip_one_app c e p : e <> "" -> smooth e -> c = LF \/ c = CR -> skip_one c (p ++ e) = skip_one c p ++ e.
Proof.
  intros N S C. destruct p as [|d p].
  - destruct e as [|x e]; [contradiction|]. apply chars_cons in S. cbn [append skip_one]. destruct (Z.eqb_spec (b2z x) (b2z c)) as [E|]; [|reflexivity].
    exfalso. destruct S as [(_ & S1 & S2) _]. destruct C as [-> | ->]; [exact (S1 E)|exact (S2 E)].
  - cbn [append skip_one]. destruct (_ =? _); reflexivity.
Qed.
Lemma flush_app e : e <> "" -> smooth e -> forall f g t q q', (slen t <= f)%nat -> (slen (t ++ e) <= g)%nat ->
  flush g false (t ++ e) q' = flush f false t q ++ e.
Proof.
  intros N S. induction f as [|f IH]; intros g t q q' L1 L2.
  - destruct t; [|cbn [slen] in L1; lia]. cbn [append flush] in *. apply flush_raw; [exact L2|]. eapply chars_impl; [|exact S]. cbv beta. tauto.
  - destruct t as [|c t].
    + cbn [append flush] in *. apply flush_raw; [exact L2|]. eapply chars_impl; [|exact S]. cbv beta. tauto.
    + destruct g as [|g]; [cbn [append slen] in L2; lia|]. cbn [append]. rewrite !flush_cons. cbn [append slen] in *.
      rewrite length_append in L2. pose proof (skip_one_len LF t). pose proof (skip_one_len CR t).
      rewrite !skip_one_app by tauto.
      destruct (b2z c =? 13); [cbn [append]; f_equal; apply IH; [lia|rewrite length_append; lia]|].
      destruct (b2z c =? 10); [cbn [append]; f_equal; apply IH; [lia|rewrite length_append; lia]|].
      cbn [append]. f_equal. apply IH; [lia|rewrite length_append; lia].
Qed.
Lemma flush_chars (P : Z -> Prop) : P 10 -> forall f t q, chars (fun n => n = 13 \/ P n) t -> chars P (flush f false t q).
Proof.
  intros P10. induction f as [|f IH]; intros t q H; [apply chars_nil|]. destruct t as [|c t]; [apply chars_nil|]. rewrite flush_cons.
  apply chars_cons in H. destruct H as [H0 H]. pose proof (skip_one_chars _ LF t H). pose proof (skip_one_chars _ CR t H).
  destruct (Z.eqb_spec (b2z c) 13) as [E|E]; [apply chars_cons; split; [exact P10|apply IH; assumption]|].
  destruct (Z.eqb_spec (b2z c) 10) as [E'|E']; [apply chars_cons; split; [exact P10|apply IH; assumption]|].
  apply chars_cons. split; [destruct H0; [contradiction|assumption]|apply IH; exact H].
Qed.

Lemma get_raw_flush t : nonul t -> get_str false t = flush (slen t) false t t /\ raw_text (get_str false t).
Proof.
  intros H. unfold get_str. assert (R : raw_text (flush (slen t) false t t)).
  { apply flush_chars; [lia|]. eapply chars_impl; [|exact H]. cbv beta. lia. }
  rewrite c_str_id by (apply raw_nonul, R). split; [reflexivity|exact R].
Qed.
Lemma raw_ends_first e t : e <> "" -> smooth e -> nonul t -> ends_first e t -> ends_first e (get_str false t).
Proof.
  intros N S Z H a b E. rewrite (proj1 (get_raw_flush t Z)) in E.
  rewrite <- (flush_app e N S (slen t) (slen (t ++ e)) t t t) in E by lia.
  destruct (flush_part e S a (slen (t ++ e)) (t ++ e) t b) as (a' & y & g & z & E' & ->); [lia|exact E|].
  rewrite (H a' y E'). apply flush_nil.
Qed.
Lemma raw_starts e m t : e <> "" -> smooth e -> m <> "" -> smooth m -> nonul t -> ~ starts e (t ++ m) -> ~ starts e (get_str false t ++ m).
Proof.
  intros N S Nm Sm Z H [r E]. apply H. rewrite (proj1 (get_raw_flush t Z)) in E.
  rewrite <- (flush_app m Nm Sm (slen t) (slen (t ++ m)) t t t) in E by lia.
  destruct (flush_prefix e S (slen (t ++ m)) (t ++ m) t r) as (y & g & z & E' & _); [lia|exact E|]. exists y. exact E'.
Qed.

(** ** Names and attributes *)

Lemma span_chars f (P : Z -> Prop) : (forall c, f c = true -> P (b2z c)) -> forall p a r, span f p = (a, r) -> chars P a.
Proof.
  intros F. induction p as [|c p IH]; intros a r H; [injection H as <- <-; apply chars_nil|]. cbn [span] in H.
  destruct (f c) eqn:E; [|injection H as <- <-; apply chars_nil]. destruct (span f p) as [a' r'] eqn:E'. injection H as <- <-.
  apply chars_cons. split; [apply F, E|exact (IH a' r' eq_refl)].
Qed.
Lemma parse_name_name p n r : parse_name p = Some (n, r) -> xml_name n.
Proof.
  destruct p as [|c p]; [discriminate|]. cbn [parse_name]. destruct (name_start c) eqn:E; [|discriminate].
  destruct (span name_char p) as [a r'] eqn:E'. intros [= <- <-]. exists c, a. split; [reflexivity|]. split; [apply name_start_1, E|].
  exact (span_chars name_char name2 (fun c H => proj1 (name_char_2 c) H) p a r' E').
Qed.
Lemma c_str_nonul s : nonul (c_str s).
Proof.
  induction s as [|c s IH]; [apply chars_nil|]. cbn [c_str]. destruct (Z.eqb_spec (b2z c) 0); [apply chars_nil|].
  apply chars_cons. split; assumption.
Qed.

Lemma skip_ws_suffix p : exists w, p = w ++ skip_ws p.
Proof.
  induction p as [|c p [w IH]]; [exists ""; reflexivity|]. cbn [skip_ws]. destruct (is_ws c); [|exists ""; reflexivity].
  exists (String c w). cbn [append]. rewrite <- IH. reflexivity.
Qed.
Lemma drop_suffix n : forall p, exists w, p = w ++ drop n p.
Proof.
  induction n as [|n IH]; intros p; [exists ""; destruct p; reflexivity|]. destruct p as [|c p]; [exists ""; reflexivity|]. cbn [drop].
  destruct (IH p) as [w E]. exists (String c w). cbn [append]. rewrite <- E. reflexivity.
Qed.
Definition sound_attr (a : string * string) : Prop := xml_name (fst a) /\ nonul (snd a).
Lemma parse_attr_sound p n v r : parse_attr p = Some (n, v, r) -> sound_attr (n, v) /\ exists a, p = a ++ r.
Proof.
  unfold parse_attr. destruct (parse_name p) as [[n0 p1]|] eqn:EN; [|discriminate]. pose proof (parse_name_name _ _ _ EN) as N. apply parse_name_split in EN.
  destruct EN as [-> _]. destruct (skip_ws_suffix p1) as [w1 E1]. destruct (skip_ws p1) as [|c p2]; [discriminate|]. destruct (b2z c =? 61); [|discriminate].
  destruct (skip_ws_suffix p2) as [w2 E2]. destruct (skip_ws p2) as [|d p3]; [discriminate|]. destruct (_ || _); [|discriminate].
  destruct (parse_text (String d "") p3) as [[t r']|] eqn:ET; [|discriminate]. intros [= <- <- <-]. split; [split; [exact N|apply c_str_nonul]|].
  apply parse_text_split in ET. exists (n0 ++ w1 ++ String c (w2 ++ String d (t ++ String d ""))). rewrite E1, E2, ET.
  rewrite !append_assoc. cbn [append]. rewrite !append_assoc. cbn [append]. rewrite !append_assoc. reflexivity.
Qed.

Lemma attribute_none l n : attribute l n = None -> ~ In n (map fst l).
Proof.
  induction l as [|[m v] l IH]; intros H K; [exact K|]. cbn [attribute] in H. destruct (String.eqb_spec m n); [discriminate|].
  destruct K as [K|K]; [contradiction|exact (IH H K)].
Qed.
Lemma nodup_snoc (l : list string) n : NoDup l -> ~ In n l -> NoDup (l ++ [n])%list.
Proof.
  intros H N. induction H as [|x l Hx H IH]; [constructor; [intros []|constructor]|]. cbn [app]. constructor.
  - rewrite in_app_iff. intros [K|[K|[]]]; [exact (Hx K)|]. apply N. left. symmetry. exact K.
  - apply IH. intros K. apply N. right. exact K.
Qed.
Lemma parse_attrs_sound f : forall acc p a b r, parse_attrs f acc p = AOk a b r -> NoDup (map fst acc) -> Forall sound_attr acc ->
  NoDup (map fst a) /\ Forall sound_attr a /\ exists w, p = w ++ r.
Proof.
  induction f as [|f IH]; intros acc p a b r H N F; [discriminate|]. cbn [parse_attrs] in H.
  destruct (skip_ws_suffix p) as [w0 E0]. destruct (skip_ws p) as [|c p1]; [discriminate|].
  destruct (name_start c).
  - destruct (parse_attr (String c p1)) as [[[n v] r1]|] eqn:EA; [|discriminate]. apply parse_attr_sound in EA. destruct EA as [SA [w1 E1]].
    destruct (attribute acc n) eqn:EN; [discriminate|]. apply attribute_none in EN.
    apply IH in H; [|rewrite map_app; cbn [map fst]; apply nodup_snoc; assumption|apply Forall_app; split; [exact F|constructor; [exact SA|constructor]]].
    destruct H as (H1 & H2 & w2 & H3). split; [exact H1|]. split; [exact H2|]. exists (w0 ++ w1 ++ w2). rewrite E0, E1, H3, !append_assoc. reflexivity.
  - destruct (b2z c =? 62).
    + injection H as <- <- <-. split; [exact N|]. split; [exact F|]. exists (w0 ++ String c ""). rewrite E0, append_assoc. reflexivity.
    + destruct (_ && _); [|discriminate]. injection H as <- <- <-. split; [exact N|]. split; [exact F|]. unfold tail. destruct (drop_suffix 1 p1) as [w1 E1].
      exists (w0 ++ String c w1). rewrite E0, append_assoc. cbn [append]. rewrite <- E1. reflexivity.
Qed.

(** ** Nodes *)

Lemma smooth_marks : smooth "?>" /\ smooth "-->" /\ smooth "]]>" /\ smooth ">" /\ smooth "--" /\ smooth "[CDATA[".
Proof.
  unfold smooth, chars. cbn [list_ascii_of_string In]. repeat split; intros; repeat match goal with H : _ \/ _ |- _ => destruct H as [<-|H] end; try contradiction;
    vm_compute; discriminate.
Qed.
Lemma after_mark top d f r k e : parse_nodes f top d ("<" ++ r) = Done k e -> heads plain_node k = false.
Proof.
  intros H. destruct f as [|f]; [discriminate|]. rewrite nodes_step in H. unfold step in H. cbv zeta in H.
  change (skip_ws ("<" ++ r)) with ("<" ++ r) in H. change (at_ "<" ("<" ++ r)) with (at_ "" r) in H. rewrite at_nil in H.
  set (q := "<" ++ r) in *. destruct q as [|c q'] eqn:EQ; [injection H as <- _; reflexivity|]. rewrite <- EQ in *.
  assert (D : forall x y, plain_node x = false -> push x y = Done k e -> heads plain_node k = false).
  { intros x y X E. apply push_done in E. destruct E as (k' & _ & ->). exact X. }
  repeat match type of H with
  | (if ?b then _ else _) = _ => destruct b
  | match parse_text ?a ?b with _ => _ end = _ => destruct (parse_text a b) as [[? ?]|]
  | match parse_name ?a with _ => _ end = _ => destruct (parse_name a) as [[? ?]|]
  | match pattrs ?a ?b with _ => _ end = _ => destruct (pattrs a b) as [?|? [|] ?]
  | match parse_nodes ?a ?b ?c ?d with _ => _ end = _ => destruct (parse_nodes a b c d) as [?|? [[? ?]|]]
  | Fail _ = _ => discriminate H
  | Done _ _ = _ => injection H as <- _; reflexivity
  | push _ _ = _ => eapply D; [|exact H]; reflexivity
  end.
Qed.

Lemma tidy_cons x l : tidy (x :: l) -> tidy l.
Proof. inversion 1; assumption. Qed.
Lemma tidy_text v l : tidy (NText false v :: l) -> chars (fun n => n <> 13) v /\ ~ chars space v.
Proof. intros H. inversion H; subst; [split; assumption|discriminate]. Qed.
Lemma tidy_elem n a k l : tidy (NElem n a k :: l) -> Forall (fun x => chars (fun n => n <> 13) (snd x)) a /\ tidy k.
Proof. intros H. inversion H; subst; [split; assumption|discriminate]. Qed.
Lemma raw_both v : nonul v -> chars (fun n => n <> 13) v -> raw_text v.
Proof. intros H1 H2 c Hc. split; [apply H1, Hc|apply H2, Hc]. Qed.

Lemma nodes_sound f : forall top d p k e, parse_nodes f top d p = Done k e -> nonul p -> tidy k -> Forall (fun n => is_decl n = false) k \/ top = false ->
  writable k /\ match e with Some (r, _) => nonul r | None => True end.
Proof.
  destruct smooth_marks as (M1 & M2 & M3 & M4 & M5 & M6).
  induction f as [|f IH]; intros top d p k e H Z T Dc; [discriminate|]. rewrite nodes_step in H. unfold step in H. cbv zeta in H.
  destruct (skip_ws_suffix p) as [w0 E0]. destruct (skip_ws p) as [|c q'] eqn:EQ; [injection H as <- <-; split; [constructor|exact I]|].
  rewrite <- EQ in *. set (q := skip_ws p) in *. clearbody q.
  assert (Zq : nonul q) by (rewrite E0 in Z; apply chars_app in Z; apply Z).
  assert (Zd : forall n, nonul (drop n q)). { intros n. destruct (drop_suffix n q) as [w E]. rewrite E in Zq. apply chars_app in Zq. apply Zq. }
  assert (R : forall m n t x, parse_text m (drop n q) = Some (t, x) -> nonul t /\ nonul x).
  { intros m n t x E. apply parse_text_split in E. specialize (Zd n). rewrite E in Zd. apply chars_app in Zd. destruct Zd as [Z1 Z2]. apply chars_app in Z2. tauto. }
  assert (D : forall d x nd, nonul x -> push nd (parse_nodes f top d x) = Done k e ->
    exists k', k = (nd :: k')%list /\ parse_nodes f top d x = Done k' e /\ writable k' /\ match e with Some (r, _) => nonul r | None => True end).
  { intros d' x nd Zx E. apply push_done in E. destruct E as (k' & E & ->). exists k'. split; [reflexivity|]. split; [exact E|]. apply IH in E; [exact E|exact Zx| |].
    - exact (tidy_cons _ _ T).
    - destruct Dc as [Dc|Dc]; [left; apply Forall_cons_iff in Dc; apply Dc|right; exact Dc]. }
  destruct (at_ "<?" q).
  { destruct (parse_text "?>" (drop 2 q)) as [[t x]|] eqn:E; [|discriminate]. destruct (top && d) eqn:TD; [|discriminate]. exfalso.
    apply push_done in H. destruct H as (k' & _ & ->). destruct Dc as [Dc|Dc]; [apply Forall_cons_iff in Dc; destruct Dc; discriminate|].
    rewrite Dc in TD. discriminate. }
  destruct (at_ "<!--" q) eqn:A1.
  { destruct (parse_text "-->" (drop 4 q)) as [[t x]|] eqn:E; [|discriminate]. destruct (R _ _ _ _ E) as [Zt Zx].
    destruct (D _ _ _ Zx H) as (k' & -> & _ & W & N). split; [|exact N]. apply wr_comment; [apply get_raw_flush, Zt| |exact W].
    apply raw_ends_first; try assumption; [discriminate|]. eapply text_ends_first; [discriminate|exact E]. }
  destruct (at_ "<![CDATA[" q) eqn:A2.
  { destruct (parse_text "]]>" (drop 9 q)) as [[t x]|] eqn:E; [|discriminate]. destruct (R _ _ _ _ E) as [Zt Zx].
    destruct (D _ _ _ Zx H) as (k' & -> & _ & W & N). split; [|exact N]. apply wr_cdata; [apply get_raw_flush, Zt| |exact W].
    apply raw_ends_first; try assumption; [discriminate|]. eapply text_ends_first; [discriminate|exact E]. }
  destruct (at_ "<!" q) eqn:A3.
  { destruct (parse_text ">" (drop 2 q)) as [[t x]|] eqn:E; [|discriminate]. destruct (R _ _ _ _ E) as [Zt Zx].
    destruct (D _ _ _ Zx H) as (k' & -> & _ & W & N). split; [|exact N].
    assert (S : forall m, at_ ("<!" ++ m) q = false -> ~ starts m (t ++ ">")).
    { intros m A [y Y]. apply at_split in A3. destruct A3 as [r3 A3]. pose proof (parse_text_split _ _ _ _ E) as P. rewrite A3 in P.
      change 2%nat with (slen "<!") in P. rewrite drop_app in P. assert (Q : "<!" ++ t ++ ">" ++ x = ("<!" ++ m) ++ y ++ x) by (rewrite append_assoc; f_equal; rewrite <- (append_assoc t), Y, append_assoc; reflexivity).
      rewrite A3, P, Q, at_app in A. discriminate. }
    apply wr_unknown; [apply get_raw_flush, Zt| | | |exact W].
    - apply raw_ends_first; try assumption; [discriminate|]. eapply text_ends_first; [discriminate|exact E].
    - apply raw_starts; try assumption; try discriminate. apply S, A1.
    - apply raw_starts; try assumption; try discriminate. apply S, A2. }
  destruct (at_ "<" q) eqn:EL.
  - set (q1 := skip_ws (drop 1 q)) in *. set (q2 := if at_ "/" q1 then drop 1 q1 else q1) in *.
    assert (Z2 : nonul q2).
    { unfold q2, q1. destruct (skip_ws_suffix (drop 1 q)) as [w1 E1]. pose proof (Zd 1%nat) as Z1. rewrite E1 in Z1. apply chars_app in Z1. destruct Z1 as [_ Z1].
      destruct (at_ "/" _); [|exact Z1]. destruct (drop_suffix 1 (skip_ws (drop 1 q))) as [w2 E2]. rewrite E2 in Z1. apply chars_app in Z1. apply Z1. }
    destruct (parse_name q2) as [[name q3]|] eqn:EN; [|discriminate]. pose proof (parse_name_name _ _ _ EN) as Nm. apply parse_name_split in EN.
    destruct EN as [EN _]. rewrite EN in Z2. apply chars_app in Z2. destruct Z2 as [_ Z3].
    unfold pattrs in H. destruct (parse_attrs (S (slen q3)) [] q3) as [e0|attrs b q4] eqn:EA; [discriminate|].
    apply parse_attrs_sound in EA; [|constructor|constructor]. destruct EA as (Nd & Fa & w4 & E4). rewrite E4 in Z3. apply chars_app in Z3. destruct Z3 as [_ Z4].
    assert (FA : forall kk k', tidy (NElem name attrs kk :: k') -> Forall (fun x => xml_name (fst x) /\ raw_text (snd x)) attrs).
    { intros kk k' T'. apply tidy_elem in T'. destruct T' as [T' _]. clear - Fa T'. induction Fa as [|a l [H1 H2] _ IHl]; constructor.
      - apply Forall_cons_iff in T'. split; [exact H1|apply raw_both; [exact H2|apply T']].
      - apply IHl. apply Forall_cons_iff in T'. apply T'. }
    destruct b.
    { destruct (D _ _ _ Z4 H) as (k' & -> & _ & W & N). split; [|exact N]. apply wr_elem; try assumption; [exact (FA _ _ T)|constructor]. }
    destruct (at_ "/" q1); [injection H as <- <-; split; [constructor|exact Z4]|].
    destruct (String.eqb q4 ""); [discriminate|]. destruct (parse_nodes f false false q4) as [e0|kids [[q5 en]|]] eqn:E5; [discriminate| |discriminate].
    destruct (String.eqb en name); [|discriminate].
    assert (TK : tidy kids). { apply push_done in H. destruct H as (k' & _ & ->). exact (proj2 (tidy_elem _ _ _ _ T)). }
    destruct (IH _ _ _ _ _ E5 Z4 TK (or_intror eq_refl)) as [Wk Z5].
    destruct (D _ _ _ Z5 H) as (k' & -> & _ & W & N). split; [|exact N]. apply wr_elem; try assumption. exact (FA _ _ T).
  - destruct (parse_text "<" p) as [[t x]|] eqn:E; [|discriminate]. destruct (String.eqb x ""); [discriminate|].
    apply parse_text_split in E. assert (Zx : nonul ("<" ++ x)) by (rewrite E in Z; apply chars_app in Z; apply Z).
    destruct (D _ _ _ Zx H) as (k' & -> & P & W & N). split; [|exact N]. destruct (tidy_text _ _ T) as [T1 T2].
    apply wr_text; [apply raw_both; [apply c_str_nonul|exact T1]|exact T2|exact (after_mark _ _ _ _ _ _ P)|exact W].
Qed.
