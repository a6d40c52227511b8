(** Loading and saving XML documents. *)

From Coq Require Import ZArith Ascii String List Bool Lia.
From Verif Require Import Base M_Bytes M_TecZone M_TecFile Spec_Loop Spec_Tec Spec_Plt Spec_Xml L_Base L_Text L_TecFile L_TecText L_TecWhole
  M_Scan M_Xml M_ReadXml L_Xml L_XmlSeq L_XmlText L_XmlLog Spec_XmlDoc L_XmlDoc
  L_XmlEdit M_XmlPrint Spec_Save L_XmlPrint L_XmlShape.
Import ListNotations.
Open Scope string_scope.
Open Scope Z_scope.

(** ** Loaded documents *)

Lemma decl_head f top d p t k e : parse_nodes f top d p = Done (NDecl t :: k) e -> nonul p ->
  raw_text t /\ ends_first "?>" t /\ exists g x, parse_nodes g true true x = Done k e /\ nonul x.
Proof.
  intros H Z. destruct f as [|f]; [discriminate|]. rewrite nodes_step in H. unfold step in H. cbv zeta in H.
  destruct (skip_ws_suffix p) as [w0 E0]. destruct (skip_ws p) as [|c q'] eqn:EQ; [discriminate|].
  rewrite <- EQ in *. set (q := skip_ws p) in *. clearbody q.
  assert (Zq : nonul q) by (rewrite E0 in Z; apply chars_app in Z; apply Z).
  assert (D : forall x y, is_decl x = false -> push x y = Done (NDecl t :: k) e -> False).
  { intros x y X E. apply push_done in E. destruct E as (k' & _ & E). injection E as <- _. discriminate X. }
  destruct (at_ "<?" q).
  - destruct (parse_text "?>" (drop 2 q)) as [[s x]|] eqn:E; [|discriminate]. destruct (top && d) eqn:TD; [|discriminate].
    apply andb_true_iff in TD. destruct TD as [-> ->]. apply push_done in H. destruct H as (k' & H & [= -> ->]).
    destruct (drop_suffix 2 q) as [w E2]. rewrite E2 in Zq. apply chars_app in Zq. destruct Zq as [_ Zq]. pose proof (parse_text_split _ _ _ _ E) as ES.
    rewrite ES in Zq. apply chars_app in Zq. destruct Zq as [Zs Zx]. apply chars_app in Zx.
    split; [apply get_raw_flush, Zs|]. split; [|exists f, x; split; [exact H|apply Zx]].
    apply raw_ends_first; [discriminate|apply smooth_marks|exact Zs|]. eapply text_ends_first; [discriminate|exact E].
  - exfalso.
    repeat match type of H with
    | (if ?b then _ else _) = _ => destruct b
    | match parse_text ?a ?b with _ => _ end = _ => destruct (parse_text a b) as [[? ?]|]
    | match parse_name ?a with _ => _ end = _ => destruct (parse_name a) as [[? ?]|]
    | match pattrs ?a ?b with _ => _ end = _ => destruct (pattrs a b) as [?|? [|] ?]
    | match parse_nodes ?a ?b ?c ?d with _ => _ end = _ => destruct (parse_nodes a b c d) as [?|? [[? ?]|]]
    | Fail _ = _ => discriminate H
    | Done [] _ = _ => discriminate H
    | push _ _ = _ => eapply D; [|exact H]; reflexivity
    end.
Qed.

Lemma loaded_writable x l : load_text x = inl l -> tidy l -> usual l -> writable_doc l.
Proof.
  intros L T (U1 & U2 & U3). unfold load_text in L. set (p := read_bom (skip_ws (c_str x))) in *.
  assert (Z : nonul p).
  { unfold p, read_bom. pose proof (c_str_nonul x) as Z. destruct (skip_ws_suffix (c_str x)) as [w E]. rewrite E in Z. apply chars_app in Z. destruct Z as [_ Z].
    destruct (at_ bom _); [|exact Z]. destruct (drop_suffix 3 (skip_ws (c_str x))) as [w' E']. rewrite E' in Z. apply chars_app in Z. apply Z. }
  destruct p as [|c p']; [discriminate|]. destruct (parse_nodes _ true true _) as [e|k e] eqn:P; [discriminate|]. injection L as ->.
  destruct l as [|n l]; [contradiction U1; reflexivity|]. cbn [List.tl] in U3. destruct (is_decl n) eqn:D.
  - destruct n as [? ? ?|? ?|?|t|?]; try discriminate. destruct (decl_head _ _ _ _ _ _ _ P Z) as (H1 & H2 & g & y & P' & Zy).
    apply Forall_cons_iff in U2. apply wd_decl; [exact H1|exact H2| |apply U2].
    exact (proj1 (nodes_sound _ _ _ _ _ _ P' Zy (tidy_cons _ _ T) (or_introl U3))).
  - apply wd_plain; [exact U1| |exact U2]. apply (nodes_sound _ _ _ _ _ _ P Z T). left. constructor; assumption.
Qed.

(** ** Documents that do not change *)

Lemma unmixed_shaped l : unmixed l -> forall d, indented_by (indented_node d) d l = l.
Proof.
  induction 1 as [|n a k l _ IHk _ IHl|x l Hx Hp _ IH]; intros d; [reflexivity| |].
  - change (NElem n a (indented_by (indented_node (d + 1)) (d + 1) k) :: indented_by (indented_node d) d l = NElem n a k :: l). rewrite IHk, IHl. reflexivity.
  - destruct x as [? ? ?|[|] v|?|?|?]; try discriminate Hx; cbn [indented_by indented_node]; rewrite ?(Hp eq_refl), IH; reflexivity.
Qed.
Lemma unmixed_indented l : unmixed l -> Forall (fun n => is_text n = false) l -> indented l = l.
Proof. intros H F. rewrite <- (shaped_outer false l F). apply (unmixed_shaped l H). Qed.
Lemma usual_texts l : usual l -> Forall (fun n => is_text n = false) l.
Proof. intros H. apply H. Qed.

Lemma saved_loads c b l : writable_doc l -> load_text (save c b l) = inl (if c then l else indented l).
Proof. intros H. apply document_loads, saved_document, H. Qed.
Lemma loaded_saved x l c b : load_text x = inl l -> tidy l -> usual l -> load_text (save c b l) = inl (if c then l else indented l).
Proof. intros L T U. apply saved_loads, (loaded_writable x l L T U). Qed.
Lemma loaded_same x l c b : load_text x = inl l -> tidy l -> usual l -> c = true \/ unmixed l -> load_text (save c b l) = inl l.
Proof.
  intros L T U M. rewrite (loaded_saved x l c b L T U). destruct c; [reflexivity|]. destruct M as [M|M]; [discriminate|].
  rewrite unmixed_indented; [reflexivity|exact M|apply U].
Qed.

(** The byte order mark. *)
Lemma written_starts c x l f t : is_text x = false -> t < 0 ->
  exists r, fst (in_turn (visit c) (x :: l) (mkPrinter false f 0 t)) = (if (t <? 0) && negb f && negb c then NL else "") ++ "<" ++ r.
Proof.
  intros H Ht. rewrite turn_cons. cbn [fst]. set (rest := fst (in_turn _ _ _)). clearbody rest. destruct x as [n a k|? ?|s|s|s]; try discriminate H.
  - cbn [visit]. unfold open_element, seal. cbn [p_opened p_first p_depth p_text]. destruct (in_turn _ _ _) as [s2 st2]. destruct (close_element _ _ _) as [s3 st3].
    cbn [fst]. eexists. replace (if c then "" else print_space 0) with "" by (destruct c; reflexivity). cbn [append]. rewrite !append_assoc. cbn [append]. reflexivity.
  - cbn [visit]. rewrite mark_eq. cbn [fst]. eexists. rewrite !append_assoc. destruct (_ && _); cbn [append]; reflexivity.
  - cbn [visit]. rewrite mark_eq. cbn [fst]. eexists. rewrite !append_assoc. destruct (_ && _); cbn [append]; reflexivity.
  - cbn [visit]. rewrite mark_eq. cbn [fst]. eexists. rewrite !append_assoc. destruct (_ && _); cbn [append]; reflexivity.
Qed.
Lemma saved_bom c b l : l <> [] -> Forall (fun n => is_text n = false) l -> has_bom (save c b l) = b.
Proof.
  intros N F. destruct l as [|x l]; [contradiction|]. apply Forall_cons_iff in F. destruct F as [F _].
  destruct (written_starts c x l true (-1) F ltac:(lia)) as [r E]. unfold has_bom, save, new_printer. rewrite E. destruct b; reflexivity.
Qed.

Lemma resaved_fixed x l c : load_text x = inl l -> tidy l -> usual l -> c = true \/ unmixed l ->
  exists y, resaved c x = Some y /\ load_text y = inl l /\ has_bom y = has_bom x /\ forall n, resaved_times c n y = Some y.
Proof.
  intros L T U M. exists (save c (has_bom x) l). unfold resaved at 1. rewrite L. split; [reflexivity|].
  pose proof (loaded_same x l c (has_bom x) L T U M) as E. split; [exact E|]. split; [apply saved_bom; apply U|]. induction n as [|n IH]; [reflexivity|].
  cbn [resaved_times]. unfold resaved. rewrite E, saved_bom by apply U. exact IH.
Qed.

(** ** Texts in front of elements *)

Lemma blanks_app m n : blanks m ++ blanks n = blanks (m + n).
Proof. induction m as [|m IH]; [reflexivity|]. cbn [blanks append Nat.add]. rewrite IH. reflexivity. Qed.
Lemma resaved_drift x a b v : xml_name a -> xml_name b -> raw_text v -> ~ chars space v ->
  load_text x = inl [NElem a [] [NText false v; NElem b [] []]] ->
  forall n, exists y, resaved_times false n x = Some y /\ load_text y = inl [NElem a [] [NText false (v ++ blanks (4 * n)); NElem b [] []]].
Proof.
  intros Ha Hb Hv Hs L n. revert x v Hv Hs L. induction n as [|n IH]; intros x v Hv Hs L.
  - exists x. split; [reflexivity|]. change (4 * 0)%nat with 0%nat. cbn [blanks]. rewrite append_nil_r. exact L.
  - cbn [resaved_times]. unfold resaved. rewrite L. set (l := [NElem a [] _]) in *.
    assert (W : writable_doc l).
    { apply wd_plain; [discriminate| |repeat constructor]. apply wr_elem; [exact Ha|constructor|constructor| |constructor].
      apply wr_text; [exact Hv|exact Hs|reflexivity|]. apply wr_elem; [exact Hb|constructor|constructor|constructor|constructor]. }
    assert (R : raw_text (v ++ blanks 4)). { apply chars_app. split; [exact Hv|]. eapply chars_impl; [|apply (blanks_space 4)]. cbv beta. lia. }
    assert (B : ~ chars space (v ++ blanks 4)). { intros B. apply chars_app in B. apply Hs, B. }
    destruct (IH (save false (has_bom x) l) (v ++ blanks 4) R B) as (y & E & Ly).
    { rewrite (saved_loads false (has_bom x) l W). reflexivity. }
    exists y. split; [exact E|]. rewrite Ly, append_assoc, blanks_app. replace (4 * S n)%nat with (4 + 4 * n)%nat by lia. reflexivity.
Qed.

(** ** Logs *)

Lemma saved_log fs fs' p x l c b : fs (c_str p) = Some (list_ascii_of_string x) -> load_text x = inl l -> tidy l -> usual l -> c = true \/ unmixed l ->
  fs' (c_str p) = Some (list_ascii_of_string (save c b l)) -> read_log fs' p = read_log fs p.
Proof.
  intros F L T U M F'. symmetry. exact (read_log_eq fs fs' p x (save c b l) l l F F' L (loaded_same x l c b L T U M) (ed_same _ _)).
Qed.

Definition nice (x : node) : Prop := (forall l, tidy l -> tidy (x :: l)) /\ (forall l, unmixed l -> unmixed (x :: l)).
Lemma nices k : Forall nice k -> tidy k /\ unmixed k.
Proof. induction 1 as [|x k [H1 H2] _ [IH1 IH2]]; [split; constructor|]. split; auto. Qed.
Lemma nice_elem n a k : Forall (fun x => plain_value (snd x)) a -> Forall nice k -> nice (NElem n a k).
Proof.
  intros Ha Hk. apply nices in Hk. destruct Hk as [K1 K2]. split; intros l H.
  - apply ti_elem; [|exact K1|exact H]. eapply Forall_impl; [|exact Ha]. intros x. apply chars_impl. unfold plain. tauto.
  - apply un_elem; assumption.
Qed.
Lemma nice_comment s : nice (NComment s).
Proof. split; intros l H; [apply ti_other|apply un_other]; try reflexivity; try exact H. discriminate. Qed.
Lemma nice_txt n s : chars plain s -> nice (txt n s).
Proof.
  intros H. unfold txt. destruct (blank s) eqn:B; [apply nice_elem; constructor|]. split; intros l Hl.
  - apply ti_elem; [constructor| |exact Hl]. apply ti_text; [eapply chars_impl; [|exact H]; unfold plain; tauto| |constructor].
    intros S. apply blank_iff in S. congruence.
  - apply un_elem; [|exact Hl]. apply un_other; [reflexivity|reflexivity|constructor].
Qed.
Lemma nice_aux a : xml_aux a -> Forall nice (aux_nodes a).
Proof.
  intros [_ H]. destruct a as [|p a]; [constructor|]. unfold aux_nodes. constructor; [|constructor]. apply nice_elem; [constructor|].
  apply Forall_map. eapply Forall_impl; [|exact H]. intros q [_ Hq]. apply nice_txt, Hq.
Qed.
Lemma nice_3 n v : nice (node3 n v).
Proof. apply nice_elem; [constructor|]. repeat (apply Forall_cons; [apply nice_txt, num_chars, num_i|]). apply Forall_nil. Qed.
Lemma nice_zone g : xml_zone (zl_zone g) -> nice (zone_node g).
Proof.
  intros (H1 & H2). apply nice_elem; [constructor; [exact H1|constructor]|]. unfold zone_kids. repeat (apply Forall_app; split).
  - constructor; [apply nice_txt, value_plain, H1|]. constructor; [apply nice_txt, num_chars, num_i|constructor].
  - destruct (_ =? _); constructor; [apply nice_txt, num_chars, num_le|constructor].
  - constructor; [apply nice_txt, num_chars, num_i|]. constructor; [apply nice_txt, num_chars, num_i|]. repeat (constructor; [apply nice_3|]). constructor.
  - apply nice_aux, H2.
  - constructor; [apply nice_comment|]. constructor; [|constructor]. apply nice_elem; [constructor|]. apply Forall_map, Forall_forall. intros [i d] _.
    apply nice_elem; [|constructor]. unfold data_attrs. cbn [snd]. repeat (constructor; [cbn [snd]; apply num_value; first [apply num_i|apply num_li|apply num_le]|]). constructor.
Qed.
Lemma nice_file g : xml_plain (fl_file g) -> Forall (fun z => xml_zone (zl_zone z)) (fl_zones g) -> chars plain (fl_begin g) -> nice (file_node g).
Proof.
  intros (S1 & S2 & S3 & S4 & S5 & _) Z B. apply nice_elem; [constructor; [exact S1|constructor]|]. unfold file_kids. repeat (apply Forall_app; split).
  - constructor; [apply nice_txt, name_plt, S1|]. constructor; [apply nice_txt, S2|]. constructor; [apply nice_txt, B|]. constructor; [apply nice_txt, num_chars, num_lf|].
    constructor; [apply nice_txt, S3|]. constructor; [apply nice_comment|]. constructor; [apply nice_txt, num_chars, num_i|]. constructor; [|constructor].
    apply nice_elem; [constructor|]. apply Forall_map, Forall_forall. intros [i d] _. apply nice_elem; [|constructor].
    constructor; [|constructor]. cbn [snd]. apply num_value, num_i.
  - apply nice_aux, S5.
  - constructor; [|constructor]. apply nice_elem; [constructor|]. apply Forall_map. eapply Forall_impl; [|exact Z]. intros z. apply nice_zone.
Qed.
Lemma line_decl y dn l : nonul (xml_line ++ y) -> load_text (xml_line ++ y) = inl (dn :: l) -> is_decl dn = true.
Proof.
  intros N H. rewrite (load_parse _ _ N (decl_first _)) in H by discriminate. rewrite parse_decl in H.
  destruct (parse true true y); [discriminate|]. cbn [push] in H. injection H as <- _. reflexivity.
Qed.

Lemma own_log e f s g u depth :
  file_wf f -> plt_size f < 2 ^ 63 -> write_plt e f = Ret (s, g) u -> xml_plain f -> chars plain (e_begin e) ->
  exists t l, xml_file g depth = Ok t /\ load_text t = inl l /\ tidy l /\ usual l /\ unmixed l.
Proof.
  intros Hw Hs E Hx Hb.
  pose proof (write_spec e f Hw Hs) as H. rewrite E in H.
  destruct H as (Hr & _ & Hsh & _ & pvs & _ & _ & _ & Hzz & _ & Hf & Hbeg & _ & Hus & _ & _ & _ & _ & _ & gs & t & Eg & Hbare).
  assert (HX : Forall (fun z => zl_xml z = []) gs) by (clear - Hbare; induction Hbare as [|z g' zs gs (_ & _ & _ & H) H2 IH]; constructor; assumption).
  destruct (gen_texts_text _ _ Eg eq_refl HX) as (ET & EZ & _).
  rewrite <- Hf in Hx. rewrite <- Hf in Hzz. rewrite <- Hbeg in Hb.
  destruct (file_parses g (fl_xml g) depth ET eq_refl EZ Hx Hzz Hb) as (y & Ex & NX & dn & Hdn & EP).
  exists (xml_line ++ y), [dn; file_node g]. split; [exact Ex|].
  assert (L : load_text (xml_line ++ y) = inl [dn; file_node g]) by (rewrite (load_parse _ _ NX (decl_first _)) by discriminate; rewrite EP; reflexivity).
  split; [exact L|]. pose proof (line_decl y dn _ NX L) as D.
  assert (NF : nice (file_node g)).
  { apply nice_file; [exact Hx| |exact Hb]. destruct Hx as (_ & _ & _ & _ & _ & Hx). rewrite Forall_forall in Hx |- *. intros z Hz. apply Hx. rewrite <- Hzz. apply in_map, Hz. }
  destruct NF as [N1 N2]. destruct dn as [? ? ?|? ?|?|?|?]; try discriminate D. repeat split.
  - apply ti_other; [reflexivity|reflexivity|]. apply N1. constructor.
  - discriminate.
  - repeat constructor.
  - repeat constructor.
  - apply un_other; [reflexivity|discriminate|]. apply N2. constructor.
Qed.
