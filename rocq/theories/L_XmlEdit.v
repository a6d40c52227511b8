(** Edits of a log that do not count. *)

From Coq Require Import ZArith Ascii String List Bool Lia.
From Verif Require Import Base M_Bytes M_TecZone M_TecFile Spec_Loop Spec_Tec Spec_Plt Spec_Xml L_Base L_TecFile L_TecText L_TecWhole
  M_Scan M_Xml M_ReadXml L_Xml L_XmlSeq L_XmlText L_XmlLog Spec_XmlDoc L_XmlDoc.
Import ListNotations.
Open Scope list_scope.
Open Scope Z_scope.

(** ** What an edit keeps *)

Definition both {A} (R : A -> A -> Prop) (x y : option A) : Prop :=
  match x, y with Some a, Some b => R a b | None, None => True | _, _ => False end.
Definition view (r : role) (n n' : node) : Prop :=
  (named r = true -> name_of n = name_of n') /\
  (texted r = true -> get_text n = get_text n') /\
  (forall x, In x (atts r) -> attribute (attrs n) x = attribute (attrs n') x) /\
  (forall f s, In (f, s) (fields r) -> both (edit s) (child n f) (child n' f)) /\
  (forall s, items r = Some s -> Forall2 (edit s) (elems n) (elems n')).

Lemma both_refl {A} (R : A -> A -> Prop) x : (forall a, R a a) -> both R x x.
Proof. intros H. destruct x; cbn; auto. Qed.
Lemma both_trans {A} (R : A -> A -> Prop) x y z : (forall a b c, R a b -> R b c -> R a c) -> both R x y -> both R y z -> both R x z.
Proof. intros H. destruct x, y, z; cbn; eauto; contradiction. Qed.
Lemma both_sym {A} (R : A -> A -> Prop) x y : (forall a b, R a b -> R b a) -> both R x y -> both R y x.
Proof. intros H. destruct x, y; cbn; eauto. Qed.
Lemma two_refl s l : Forall2 (edit s) l l.
Proof. induction l; constructor; auto using ed_same. Qed.
Lemma two_trans s : forall l1 l2, Forall2 (edit s) l1 l2 -> forall l3, Forall2 (edit s) l2 l3 -> Forall2 (edit s) l1 l3.
Proof. induction 1 as [|a b l1 l2 H H1 IH]; intros l3 H3; inversion H3; subst; constructor; eauto using ed_then. Qed.
Lemma two_sym s l1 l2 : Forall2 (edit s) l1 l2 -> Forall2 (edit s) l2 l1.
Proof. induction 1; constructor; auto using ed_undo. Qed.

Lemma elems_app n a k1 k2 : elems (NElem n a (k1 ++ k2)) = filter is_elem k1 ++ filter is_elem k2.
Proof. apply filter_app. Qed.
Lemma find_app_ {A} (p : A -> bool) l1 l2 : List.find p (l1 ++ l2) = match List.find p l1 with Some x => Some x | None => List.find p l2 end.
Proof. induction l1 as [|x l1 IH]; [reflexivity|]. cbn. destruct (p x); [reflexivity|exact IH]. Qed.
Lemma child_app n a k1 k2 f : child (NElem n a (k1 ++ k2)) f =
  match child (NElem n a k1) f with Some x => Some x | None => child (NElem n a k2) f end.
Proof. unfold child. rewrite elems_app, find_app_. reflexivity. Qed.
Lemma child_cons n a c k f : child (NElem n a (c :: k)) f = if is_elem c && String.eqb (name_of c) f then Some c else child (NElem n a k) f.
Proof. unfold child, elems. cbn [kids filter]. destruct (is_elem c); cbn [andb List.find]; reflexivity. Qed.
Lemma text_after n a k1 k2 k3 : k1 <> [] -> get_text (NElem n a (k1 ++ k2)) = get_text (NElem n a (k1 ++ k3)).
Proof. destruct k1; [contradiction|reflexivity]. Qed.
Lemma text_free r n a k1 k2 k3 : free r k1 -> texted r = true -> get_text (NElem n a (k1 ++ k2)) = get_text (NElem n a (k1 ++ k3)).
Proof. intros [H|H] E; [congruence|]. apply text_after, H. Qed.
Lemma attribute_more a1 a2 x : attribute (a1 ++ a2) x = match attribute a1 x with Some v => Some v | None => attribute a2 x end.
Proof. induction a1 as [|[n v] a1 IH]; [reflexivity|]. cbn. destruct (String.eqb n x); [reflexivity|exact IH]. Qed.
Lemma child_some n a k f b : In b k -> is_elem b = true -> name_of b = f -> exists c, child (NElem n a k) f = Some c.
Proof.
  intros H1 H2 H3. unfold child. destruct (List.find _ _) as [c|] eqn:E; [eauto|]. exfalso.
  pose proof (find_none _ _ E b) as N. cbv beta in N. rewrite H3, String.eqb_refl in N. discriminate N.
  apply filter_In. auto.
Qed.

Lemma edit_view r n n' : edit r n n' -> view r n n'.
Proof.
  induction 1 as [r x|r x y z H1 IH1 H2 IH2|r x y H IH|r n n' a k Hn|r n a1 x v a2 k Hx|r n a1 x y a2 k Hx|r n a k1 c k2 Hc Hf
    |r n a k1 c k2 Hi Hc Hf|r n a k1 b c k2 Hi Hb He Hn|r n a k1 b c k2 Hi Hb Hc Hn Hf|r f s n a k1 c c' k2 Hf Hn Hn' Hc Hc' H IH|r s n a k1 c c' k2 Hi Hc Hc' H IH].
  - repeat split; auto; intros; [apply both_refl, ed_same|apply two_refl].
  - destruct IH1 as (A1 & A2 & A3 & A4 & A5), IH2 as (B1 & B2 & B3 & B4 & B5). split; [|split; [|split; [|split]]]; intros.
    + rewrite A1, B1 by assumption. reflexivity.
    + rewrite A2, B2 by assumption. reflexivity.
    + rewrite A3, B3 by assumption. reflexivity.
    + eapply both_trans; [apply ed_then|apply A4; assumption|apply B4; assumption].
    + eapply two_trans; eauto.
  - destruct IH as (A1 & A2 & A3 & A4 & A5). split; [|split; [|split; [|split]]]; intros.
    + symmetry; auto.
    + symmetry; auto.
    + symmetry; auto.
    + apply both_sym; [apply ed_undo|auto].
    + apply two_sym; auto.
  - split; [congruence|]. repeat split; intros; [apply both_refl, ed_same|apply two_refl].
  - repeat split; intros; [|apply both_refl, ed_same|apply two_refl]. cbn [attrs]. rewrite !attribute_more. cbn [attribute].
    destruct (String.eqb_spec x x0) as [->|]; [contradiction|reflexivity].
  - repeat split; intros; [|apply both_refl, ed_same|apply two_refl]. cbn [attrs]. rewrite !attribute_more. destruct x as [x v], y as [y v']. cbn [attribute fst] in *.
    destruct (String.eqb_spec x x0) as [->|]; [|reflexivity]. destruct (String.eqb_spec y x0) as [->|]; [contradiction|reflexivity].
  - split; [reflexivity|]. split; [apply text_free, Hf|]. split; [reflexivity|]. split; intros.
    + rewrite !child_app, child_cons, Hc. apply both_refl, ed_same.
    + rewrite !elems_app. cbn [filter]. rewrite Hc. apply two_refl.
  - split; [reflexivity|]. split; [apply text_free, Hf|]. split; [reflexivity|]. split; intros; [|congruence].
    rewrite !child_app, child_cons. destruct (String.eqb_spec (name_of c) f) as [<-|]; [|rewrite andb_false_r; apply both_refl, ed_same].
    exfalso. apply Hc. apply in_map_iff. exists (name_of c, s). auto.
  - split; [reflexivity|]. split; [intros _; apply text_after; intros ->; contradiction|]. split; [reflexivity|]. split; intros; [|congruence].
    rewrite !child_app, child_cons. destruct (String.eqb_spec (name_of c) f) as [E|]; [|rewrite andb_false_r; apply both_refl, ed_same].
    destruct (child_some n a k1 f b Hb He (eq_trans Hn E)) as [d ->]. cbn. apply ed_same.
  - split; [reflexivity|]. split; [apply text_free, Hf|]. split; [reflexivity|]. split; intros; [|congruence].
    rewrite !child_app, !child_cons, Hb, Hc. cbn [andb].
    destruct (String.eqb_spec (name_of b) f) as [E1|], (String.eqb_spec (name_of c) f) as [E2|]; try (apply both_refl, ed_same). congruence.
  - assert (T : texted r = false) by (destruct r; (reflexivity || contradiction)).
    split; [reflexivity|]. split; [congruence|]. split; [reflexivity|]. split; intros.
    + rewrite !child_app, !child_cons, Hc, Hc', Hn, Hn'. cbn [andb]. destruct (child (NElem n a k1) f0); [apply ed_same|].
      destruct (String.eqb_spec f f0) as [<-|]; [|apply both_refl, ed_same]. cbn.
      assert (s0 = s) as ->; [|assumption].
      clear - Hf H0. destruct r; cbn [fields In] in Hf, H0; try contradiction;
      repeat (destruct Hf as [Hf|Hf]; [injection Hf as <- <-|]); try contradiction;
      repeat (destruct H0 as [H0|H0]; [try discriminate H0; injection H0 as <-; reflexivity|]); contradiction.
    + exfalso. destruct r; (discriminate || contradiction).
  - assert (T : texted r = false) by (destruct r; (reflexivity || discriminate)).
    split; [reflexivity|]. split; [congruence|]. split; [reflexivity|]. split; intros.
    + exfalso. destruct r; (discriminate || contradiction).
    + rewrite !elems_app. cbn [filter]. rewrite Hc, Hc'. assert (s0 = s) as -> by congruence.
      apply Forall2_app; [apply two_refl|]. constructor; [assumption|apply two_refl].
Qed.

(** ** Readers *)

Lemma edit_text n n' : edit RText n n' -> get_text n = get_text n'.
Proof. intros H. apply edit_view in H. apply H. reflexivity. Qed.

Section Readers.
Variables (r : role) (n n' : node) (E : edit r n n').

Lemma field_both f s : In (f, s) (fields r) -> both (edit s) (child n f) (child n' f).
Proof. intros H. apply edit_view in E. destruct E as (_ & _ & _ & E' & _). apply E', H. Qed.
Lemma need_text f B (k k' : node -> res B) : In (f, RText) (fields r) -> (forall c c', get_text c = get_text c' -> k c = k' c') ->
  (let* c := need n f in k c) = (let* c := need n' f in k' c).
Proof.
  intros H Hk. pose proof (field_both f RText H) as Hb. unfold need. destruct (child n f), (child n' f); cbn in Hb |- *; try contradiction; [|reflexivity].
  apply Hk, edit_text, Hb.
Qed.
Lemma text_of_eq f : In (f, RText) (fields r) -> text_of n f = text_of n' f.
Proof. intros H. apply need_text; [exact H|]. intros c c' ->. reflexivity. Qed.
Lemma int_of_eq f d : In (f, RText) (fields r) -> int_of n f d = int_of n' f d.
Proof. intros H. apply need_text; [exact H|]. intros c c' Ht. unfold q_int_text. rewrite Ht. reflexivity. Qed.
Lemma double_of_eq f d : In (f, RText) (fields r) -> double_of n f d = double_of n' f d.
Proof. intros H. apply need_text; [exact H|]. intros c c' Ht. unfold q_double_text. rewrite Ht. reflexivity. Qed.

Lemma need_items f s t B (k k' : list node -> res B) : In (f, s) (fields r) -> items s = Some t ->
  (forall l l', Forall2 (edit t) l l' -> k l = k' l') ->
  (let* c := need n f in k (elems c)) = (let* c := need n' f in k' (elems c)).
Proof.
  intros H Hs Hk. pose proof (field_both f s H) as Hb. unfold need. destruct (child n f), (child n' f); cbn in Hb |- *; try contradiction; [|reflexivity].
  apply Hk. apply edit_view in Hb. apply Hb, Hs.
Qed.
End Readers.

Lemma ints_of_eq l l' : Forall2 (edit RText) l l' -> forall d, ints_of l d = ints_of l' d.
Proof.
  induction 1 as [|c c' l l' Hc H IH]; intros d; [reflexivity|]. destruct d as [|x d]; [reflexivity|]. cbn [ints_of].
  unfold q_int_text. rewrite (edit_text _ _ Hc), IH. reflexivity.
Qed.
Definition v3_list (u : option Z) (l : list node) : res v3 := let* l := ints_of l [u; u; u] in match l with [a; b; c] => Ok (mk3 a b c) | _ => UB end.
Lemma v3_of_eq u r n n' f : edit r n n' -> In (f, RTriple) (fields r) -> v3_of u n f = v3_of u n' f.
Proof.
  intros E H. unfold v3_of.
  apply (need_items r n n' E f RTriple RText _ (v3_list u) (v3_list u)); [exact H|reflexivity|].
  intros l l' Hl. unfold v3_list. rewrite (ints_of_eq _ _ Hl). reflexivity.
Qed.
Lemma aux_of_eq l l' : Forall2 (edit REntry) l l' -> forall a, aux_of l a = aux_of l' a.
Proof.
  induction 1 as [|c c' l l' Hc H IH]; intros a; [reflexivity|]. cbn [aux_of]. apply edit_view in Hc. destruct Hc as (H1 & H2 & _).
  rewrite H1, H2 by reflexivity. destruct (str (get_text c')); cbn [rbind]; [apply IH|reflexivity|reflexivity].
Qed.
Lemma read_aux_eq r n n' : edit r n n' -> In ("Auxiliary"%string, RAux) (fields r) -> read_aux n = read_aux n'.
Proof.
  intros E H. pose proof (field_both r n n' E _ _ H) as Hb. unfold read_aux. destruct (child n "Auxiliary"), (child n' "Auxiliary"); cbn in Hb; try contradiction; [|reflexivity].
  apply aux_of_eq. apply edit_view in Hb. apply Hb. reflexivity.
Qed.
Lemma data_of_eq u n n' : edit RData n n' -> data_of u n = data_of u n'.
Proof.
  intros E. apply edit_view in E. destruct E as (_ & _ & H & _). unfold data_of, q_int_attr, q_unsigned_attr, q_double_attr.
  rewrite (H "type"%string), (H "size_i"%string), (H "file_pt"%string), (H "min"%string), (H "max"%string) by (cbn; tauto). reflexivity.
Qed.
Lemma map_res_eq {A B} (R : A -> A -> Prop) (f : A -> res B) l l' : (forall a b, R a b -> f a = f b) -> Forall2 R l l' -> map_res f l = map_res f l'.
Proof. intros Hf. induction 1 as [|a b l l' H _ IH]; [reflexivity|]. cbn [map_res]. rewrite (Hf a b H), IH. reflexivity. Qed.

Ltac step_eq := match goal with |- (let* x := ?a in _) = (let* y := ?a in _) => let z := fresh "z" in destruct a as [z| |]; cbn [rbind]; [|reflexivity|reflexivity] end.
Ltac field := cbn [fields In]; tauto.

Lemma read_zone_eq u n n' : edit RZone n n' -> read_zone_with u n = read_zone_with u n'.
Proof.
  intros E. unfold read_zone_with. rewrite (text_of_eq _ _ _ E "ZoneName") by field. step_eq.
  apply (need_text _ _ _ E "StrandId"); [field|]. intros c c' Hc. unfold q_int_text. rewrite Hc. step_eq. step_eq.
  rewrite (double_of_eq _ _ _ E "SolutionTime") by field. step_eq.
  rewrite (int_of_eq _ _ _ E "Org_Dim") by field. step_eq.
  rewrite (int_of_eq _ _ _ E "Real_Dim") by field. step_eq.
  rewrite (v3_of_eq _ _ _ _ "Org_Max" E) by field. step_eq.
  rewrite (v3_of_eq _ _ _ _ "Skip" E) by field. step_eq.
  rewrite (v3_of_eq _ _ _ _ "Begin" E) by field. step_eq.
  rewrite (v3_of_eq _ _ _ _ "End" E) by field. step_eq.
  rewrite (v3_of_eq _ _ _ _ "Real_Max" E) by field. step_eq.
  rewrite (read_aux_eq _ _ _ E) by field. step_eq.
  apply (need_items _ _ _ E "Datas" RDatas RData _ (fun l => let* data := map_res (data_of u) l in _) (fun l => let* data := map_res (data_of u) l in _)); [field|reflexivity|].
  intros l l' Hl. rewrite (map_res_eq _ (data_of u) _ _ (data_of_eq u) Hl). reflexivity.
Qed.

Definition rest_of (n : node) (l : list node) path name title type begin ut : res file_log :=
  let* a := read_aux n in
  let* zs := need n "Zones" in
  let* zones := map_res (read_zone_with None) (elems zs) in
  gen_texts (mkFL (mkFile path name title (map name_of l) type a [] 0) zones begin "" ut 0 "" [] [] []).
Lemma read_xml_eq n n' : edit RFile n n' -> read_xml n = read_xml n'.
Proof.
  intros E. unfold read_xml. pose proof (edit_view _ _ _ E) as (_ & _ & Ha & _). rewrite (Ha "FileName"%string) by (left; reflexivity). step_eq.
  rewrite (text_of_eq _ _ _ E "FilePath") by field. step_eq.
  rewrite (text_of_eq _ _ _ E "Time") by field. step_eq.
  rewrite (double_of_eq _ _ _ E "UsingTime") by field. step_eq.
  rewrite (text_of_eq _ _ _ E "Title") by field. step_eq.
  rewrite (int_of_eq _ _ _ E "FileType") by field. step_eq.
  apply (need_items _ _ _ E "Variables" RVars RVar _ (fun l => rest_of n l z0 z z3 z4 z1 z2) (fun l => rest_of n' l z0 z z3 z4 z1 z2)); [field|reflexivity|].
  intros l l' Hl. unfold rest_of. assert (map name_of l = map name_of l') as ->.
  { clear - Hl. induction Hl as [|c c' l l' Hc _ IH]; [reflexivity|]. cbn [map]. apply edit_view in Hc. destruct Hc as (H1 & _). rewrite H1, IH by reflexivity. reflexivity. }
  rewrite (read_aux_eq _ _ _ E) by field. step_eq.
  apply (need_items _ _ _ E "Zones" RZones RZone _ (fun l => let* zones := map_res (read_zone_with None) l in _) (fun l => let* zones := map_res (read_zone_with None) l in _)); [field|reflexivity|].
  intros m m' Hm. rewrite (map_res_eq _ (read_zone_with None) _ _ (read_zone_eq None) Hm). reflexivity.
Qed.

(** ** Logs *)

Lemma read_log_eq fs fs' p t t' l l' :
  fs (c_str p) = Some (list_ascii_of_string t) -> fs' (c_str p) = Some (list_ascii_of_string t') ->
  load_text t = inl l -> load_text t' = inl l' -> edit RDoc (doc l) (doc l') -> read_log fs p = read_log fs' p.
Proof.
  intros F F' L L' E. unfold read_log, load_xml. rewrite F, F', !string_of_list_ascii_of_string, L, L'.
  pose proof (field_both _ _ _ E "File" RFile ltac:(field)) as Hb. change (c_str "File") with "File"%string. unfold doc in Hb.
  destruct (child (NElem "" [] l) "File") as [c|], (child (NElem "" [] l') "File") as [c'|]; cbn [both] in Hb; try contradiction; [|reflexivity].
  cbn [rbind]. apply read_xml_eq, Hb.
Qed.

Lemma edited_log e f s g u depth :
  file_wf f -> plt_size f < 2 ^ 63 -> write_plt e f = Ret (s, g) u -> calm e -> xml_safe f -> plain_text (e_begin e) ->
  exists t g' l, xml_file g depth = Ok t /\ same_log g g' /\ load_text t = inl l /\
    forall l' t', edit RDoc (doc l) (doc l') -> load_text t' = inl l' ->
    forall fs p, fs (c_str p) = Some (list_ascii_of_string t') -> read_log fs p = Ok g'.
Proof.
  intros Hw Hs E Hc Hx Hb. destruct (log_round_trip e f s g u depth Hw Hs E Hc Hx Hb) as (t & g' & Et & Hg & R).
  assert (L : exists l, load_text t = inl l).
  { pose proof (R (fun _ => Some (list_ascii_of_string t)) ""%string eq_refl) as R0. unfold read_log, load_xml in R0.
    rewrite string_of_list_ascii_of_string in R0. destruct (load_text t) as [l|x]; [eauto|discriminate R0]. }
  destruct L as [l L]. exists t, g', l. repeat (split; [assumption|]). intros l' t' He L' fs p F.
  rewrite <- (R (fun _ => Some (list_ascii_of_string t)) p eq_refl). symmetry. exact (read_log_eq (fun _ => Some (list_ascii_of_string t)) fs p t t' l l' eq_refl F L L' He).
Qed.

(** The text that has been written, with a comment behind its first line. *)
Lemma annotated e f s g u depth c :
  file_wf f -> plt_size f < 2 ^ 63 -> write_plt e f = Ret (s, g) u -> xml_plain f -> chars plain (e_begin e) ->
  raw_text c -> ends_first "-->" c ->
  exists y dn, xml_file g depth = Ok (xml_line ++ y)%string /\ load_text (xml_line ++ y) = inl [dn; file_node g] /\
    load_text (xml_line ++ ("<!--" ++ c ++ "-->") ++ y) = inl [dn; NComment c; file_node g].
Proof.
  intros Hw Hs E Hx Hb Hc1 Hc2.
  pose proof (write_spec e f Hw Hs) as H. rewrite E in H.
  destruct H as (Hr & _ & Hsh & _ & pvs & _ & _ & _ & Hzz & _ & Hf & Hbeg & _ & Hus & _ & _ & _ & _ & _ & gs & t & Eg & Hbare).
  assert (HX : Forall (fun z => zl_xml z = []) gs) by (clear - Hbare; induction Hbare as [|z g' zs gs (_ & _ & _ & H) H2 IH]; constructor; assumption).
  destruct (gen_texts_text _ _ Eg eq_refl HX) as (ET & EZ & _).
  rewrite <- Hf in Hx. rewrite <- Hf in Hzz. rewrite <- Hbeg in Hb.
  destruct (file_parses g (fl_xml g) depth ET eq_refl EZ Hx Hzz Hb) as (y & Ex & NX & dn & Hdn & EP).
  exists y, dn. split; [exact Ex|]. split.
  - rewrite (load_parse _ _ NX (decl_first _)) by discriminate. rewrite EP. reflexivity.
  - pose proof NX as NX'. apply chars_app in NX'. destruct NX' as [N1 N2].
    rewrite (load_parse (xml_line ++ ("<!--" ++ c ++ "-->") ++ y)%string (xml_line ++ ("<!--" ++ c ++ "-->") ++ y)%string); [|repeat (apply chars_app; split); first [assumption|apply lit_nonul; reflexivity|apply raw_nonul, Hc1]|apply decl_first|discriminate].
    rewrite parse_decl in EP |- *. rewrite !L_Text.append_assoc, node_comment by assumption.
    destruct (parse true true y) as [|k o] eqn:P; [discriminate EP|]. cbn [push] in EP. injection EP as <- -> ->.
    rewrite (parse_decls y _ _ P I). reflexivity.
Qed.
