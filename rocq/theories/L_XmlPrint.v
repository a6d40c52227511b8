(** What the XML printer writes is a layout of the document. *)

From Coq Require Import ZArith Ascii String List Bool Lia.
From Verif Require Import Base M_Bytes Spec_Xml L_Base L_Text L_Plt M_Scan M_Xml L_Xml L_XmlSeq L_XmlText Spec_XmlDoc L_XmlDoc M_XmlPrint Spec_Save.
Import ListNotations.
Open Scope string_scope.
Open Scope Z_scope.

(** ** Values *)

Lemma flag_cases r c : flagged r c = true -> In (escape c, String c "")
  [("&quot;", """"); ("&amp;", "&"); ("&apos;", "'"); ("&lt;", "<"); ("&gt;", ">")].
Proof. destruct c as [b0 b1 b2 b3 b4 b5 b6 b7]. destruct r, b0, b1, b2, b3, b4, b5, b6, b7; vm_compute; intros E; try discriminate E; tauto. Qed.
Lemma flag_none r c : flagged r c = false -> b2z c <> 38 /\ b2z c <> 60 /\ (r = false -> b2z c <> 34).
Proof.
  unfold flagged. destruct r.
  - rewrite !orb_false_iff, !Z.eqb_neq. intros [[H1 H2] H3]. repeat split; try assumption. discriminate.
  - cbn [existsb entities snd]. change (b2z (z2b 34)) with 34. change (b2z (z2b 38)) with 38. change (b2z (z2b 39)) with 39.
    change (b2z (z2b 60)) with 60. change (b2z (z2b 62)) with 62. rewrite !orb_false_iff, !Z.eqb_neq. intros H. repeat split; lia.
Qed.
Lemma entity_cooked e x raw v : In (e, x) [("&quot;", """"); ("&amp;", "&"); ("&apos;", "'"); ("&lt;", "<"); ("&gt;", ">")] ->
  cooked raw v -> cooked (e ++ raw) (x ++ v).
Proof.
  intros H C. destruct H as [H|[H|[H|[H|[H|[]]]]]]; apply pair_equal_spec in H; destruct H as [<- <-].
  - apply (ck_entity "quot" """"); [cbn; tauto|exact C].
  - apply (ck_entity "amp" "&"); [cbn; tauto|exact C].
  - apply (ck_entity "apos" "'"); [cbn; tauto|exact C].
  - apply (ck_entity "lt" "<"); [cbn; tauto|exact C].
  - apply (ck_entity "gt" ">"); [cbn; tauto|exact C].
Qed.
Lemma space_cooked w : chars space w -> chars (fun n => n <> 13) w -> cooked w w.
Proof.
  induction w as [|c w IH]; intros H K; [constructor|]. apply chars_cons in H. apply chars_cons in K. destruct H as [H H'], K as [K K'].
  apply ck_char; [|exact (IH H' K')]. unfold plain, space in *. lia.
Qed.
Lemma print_cooked r v w : raw_text v -> cooked w w -> cooked (print_string r v ++ w) (v ++ w).
Proof.
  intros H W. induction v as [|c v IH]; [exact W|]. apply chars_cons in H. destruct H as [H H']. cbn [print_string].
  destruct (flagged r c) eqn:E.
  - rewrite append_assoc. apply (entity_cooked _ (String c "")); [exact (flag_cases r c E)|exact (IH H')].
  - destruct (flag_none r c E) as (F1 & F2 & _). cbn [append]. apply ck_char; [|exact (IH H')]. unfold plain. tauto.
Qed.
Lemma print_cooked0 r v : raw_text v -> cooked (print_string r v) v.
Proof. intros H. generalize (print_cooked r v "" H ck_nil). rewrite !append_nil_r. exact (fun x => x). Qed.
Lemma print_quotes v : chars (fun n => n <> 34) (print_string false v).
Proof.
  induction v as [|c v IH]; [apply chars_nil|]. cbn [print_string]. apply chars_app. split; [|exact IH].
  destruct (flagged false c) eqn:E.
  - pose proof (flag_cases false c E) as H. destruct H as [H|[H|[H|[H|[H|[]]]]]]; apply pair_equal_spec in H; destruct H as [<- _];
      intros x; cbn [list_ascii_of_string In]; intros X; repeat (destruct X as [<-|X]; [vm_compute; discriminate|]); destruct X.
  - apply chars_cons. split; [|apply chars_nil]. apply (proj2 (proj2 (flag_none false c E))). reflexivity.
Qed.
Lemma print_not_blank r v w : ~ chars space v -> ~ chars space (print_string r v ++ w).
Proof.
  intros H K. apply H. clear H. apply chars_app in K. destruct K as [K _]. induction v as [|c v IH]; [apply chars_nil|].
  cbn [print_string] in K. apply chars_app in K. destruct K as [K1 K2]. apply chars_cons. split; [|exact (IH K2)].
  destruct (flagged r c) eqn:E; [|apply chars_cons in K1; exact (proj1 K1)]. exfalso. pose proof (flag_cases r c E) as H.
  destruct H as [H|[H|[H|[H|[H|[]]]]]]; apply pair_equal_spec in H; destruct H as [H _]; rewrite <- H in K1; apply chars_cons in K1;
    destruct K1 as [K1 _]; vm_compute in K1; destruct K1 as [K1|[K1 K3]]; try discriminate K1; apply K3; reflexivity.
Qed.

Lemma spaces_indent d : print_space d = indent d.
Proof.
  unfold print_space, indent. induction (Z.to_nat d) as [|n IH]; [reflexivity|].
  replace (4 * S n)%nat with (4 + 4 * n)%nat by lia. cbn [Nat.add blanks]. rewrite <- IH. cbn [repeat]. destruct n; reflexivity.
Qed.
Lemma blanks_space n : chars (fun c => c = 32) (blanks n).
Proof. induction n as [|n IH]; [apply chars_nil|]. cbn [blanks]. apply chars_cons. split; [reflexivity|exact IH]. Qed.
Lemma indent_space d : chars space (indent d).
Proof. eapply chars_impl; [|apply blanks_space]. unfold space. lia. Qed.
Lemma indent_cooked d : cooked (indent d) (indent d).
Proof. apply space_cooked; [apply indent_space|]. eapply chars_impl; [|apply blanks_space]. cbv beta. lia. Qed.

(** ** Attributes *)

Lemma attrs_written a : Forall (fun x => xml_name (fst x) /\ raw_text (snd x)) a -> attrs_layout (push_attributes a) a.
Proof.
  induction 1 as [|[n v] a [H1 H2] _ IH]; [apply as_end, chars_nil|]. cbn [fst snd] in *. cbn [push_attributes]. unfold push_attribute. cbn [fst snd].
  replace ((" " ++ n ++ "=""" ++ print_string false v ++ """") ++ push_attributes a)
    with (" " ++ (n ++ "" ++ "=" ++ "" ++ """" ++ print_string false v ++ """") ++ push_attributes a) by (cbn [append]; rewrite !append_assoc; reflexivity).
  apply as_attr; [|discriminate| |exact IH].
  - apply chars_cons. split; [left; reflexivity|apply chars_nil].
  - apply al_double; [exact H1|apply chars_nil|apply chars_nil|exact (print_cooked0 false v H2)|apply print_quotes].
Qed.

(** ** Nodes inside an element *)

Lemma content_ws w s l : content s l -> chars space w -> heads plain_node l = false -> content (w ++ s) l.
Proof.
  intros C W H. destruct C; try discriminate H; try rewrite <- append_assoc; constructor; try assumption; apply chars_app; split; assumption.
Qed.

(** The first node of a list ends the tag in front of it. *)
Lemma visit_seal c n f d t : visit c n (mkPrinter true f d t) = (">" ++ fst (visit c n (mkPrinter false f d t)), snd (visit c n (mkPrinter false f d t))).
Proof.
  destruct n as [name a k|b s|s|s|s].
  - cbn [visit]. unfold open_element, seal. cbn [p_opened p_first p_depth p_text append].
    destruct (in_turn _ _ _) as [s2 st2]. destruct (close_element _ _ _) as [s3 st3]. reflexivity.
  - reflexivity.
  - reflexivity.
  - reflexivity.
  - reflexivity.
Qed.
Lemma turn_cons {A} (v : A -> printer -> string * printer) x l st :
  in_turn v (x :: l) st = (fst (v x st) ++ fst (in_turn v l (snd (v x st))), snd (in_turn v l (snd (v x st)))).
Proof. cbn [in_turn]. destruct (v x st) as [s st1]. cbn [fst snd]. destruct (in_turn v l st1). reflexivity. Qed.
Lemma turn_seal c x l f d t : in_turn (visit c) (x :: l) (mkPrinter true f d t) =
  (">" ++ fst (in_turn (visit c) (x :: l) (mkPrinter false f d t)), snd (in_turn (visit c) (x :: l) (mkPrinter false f d t))).
Proof. rewrite !turn_cons, visit_seal. cbn [fst snd]. rewrite append_assoc. reflexivity. Qed.

(** An element, given what its children are written as. *)
Definition pad (c : bool) (d : Z) : string := if c then "" else indent d.
Definition break (c : bool) (d : Z) : string := if c then "" else NL ++ indent d.
Definition written_kids (n : string) (k : list node) (out : string) : string :=
  match k with [] => "/>" | _ => ">" ++ out ++ "</" ++ n ++ ">" end.
Definition front (c first : bool) (d t : Z) : string := (if (t <? 0) && negb first && negb c then NL else "") ++ pad c d.
Lemma visit_elem c n a k f d t out t' :
  in_turn (visit c) k (mkPrinter false false (d + 1) t) = (out, mkPrinter false false (d + 1) t') ->
  visit c (NElem n a k) (mkPrinter false f d t) =
  (front c f d t ++ "<" ++ n ++ push_attributes a ++ written_kids n k (out ++ (if t' <? 0 then break c d else "")) ++ (if d =? 0 then (if c then "" else NL) else ""),
   mkPrinter false false d (if (match k with [] => t | _ => t' end) =? d then -1 else match k with [] => t | _ => t' end)).
Proof.
  intros H. cbn [visit]. unfold open_element, seal. cbn [p_opened p_first p_depth p_text append].
  destruct k as [|x k].
  - cbn [in_turn]. unfold close_element. cbn [p_opened p_first p_depth p_text]. replace (d + 1 - 1) with d by lia. f_equal.
    unfold front, pad, written_kids. rewrite spaces_indent, !append_assoc. cbn [append]. destruct (d =? 0), c; reflexivity.
  - rewrite turn_seal, H. cbn [fst snd]. unfold close_element. cbn [p_opened p_first p_depth p_text]. replace (d + 1 - 1) with d by lia. f_equal.
    unfold front, pad, break, written_kids. rewrite !spaces_indent, !append_assoc. cbn [append].
    destruct (d =? 0), c, (t' <? 0); cbn [andb negb append]; rewrite ?append_assoc; reflexivity.
Qed.
Lemma elem_content n a k ks s l w : xml_name n -> NoDup (map fst a) -> Forall (fun x => xml_name (fst x) /\ raw_text (snd x)) a -> chars space w ->
  content ks k -> content s l -> content (w ++ "<" ++ n ++ push_attributes a ++ written_kids n k ks ++ s) (NElem n a k :: l).
Proof.
  intros Hn Ha Hv Hw Hk Hs. destruct k as [|x k]; unfold written_kids.
  - apply co_closed; try assumption. apply attrs_written, Hv.
  - replace (w ++ "<" ++ n ++ push_attributes a ++ (">" ++ ks ++ "</" ++ n ++ ">") ++ s)
      with (w ++ "<" ++ n ++ push_attributes a ++ ">" ++ ks ++ "</" ++ n ++ "" ++ ">" ++ s) by (rewrite !append_assoc; reflexivity).
    apply co_elem; try assumption; [apply attrs_written, Hv|apply chars_nil].
Qed.

Definition shaped (c : bool) (d : Z) (l : list node) : list node := if c then l else indented_by (indented_node d) d l.
Lemma shaped_text c d v l : shaped c d (NText false v :: l) = NText false (v ++ (if heads is_elem l then pad c d else "")) :: shaped c d l.
Proof. unfold shaped, pad. destruct c; cbn [indented_by]; destruct (heads is_elem l); rewrite ?append_nil_r; reflexivity. Qed.
Lemma shaped_elem c d n a k l : shaped c d (NElem n a k :: l) = NElem n a (shaped c (d + 1) k) :: shaped c d l.
Proof. unfold shaped. destruct c; reflexivity. Qed.
Lemma shaped_other c d x l : is_elem x = false -> plain_node x = false -> shaped c d (x :: l) = x :: shaped c d l.
Proof. intros H1 H2. unfold shaped. destruct c; [reflexivity|]. destruct x as [? ? ?|[|] ?|?|?|?]; try discriminate; reflexivity. Qed.
Lemma shaped_nil c d : shaped c d [] = [].
Proof. destruct c; reflexivity. Qed.
Lemma shaped_heads c d l : heads plain_node (shaped c d l) = heads plain_node l.
Proof. destruct l as [|x l]; [destruct c; reflexivity|]. unfold shaped. destruct c; [reflexivity|]. destruct x as [? ? ?|[|] ?|?|?|?]; reflexivity. Qed.
Lemma shaped_kids c d n k s : written_kids n (shaped c d k) s = written_kids n k s.
Proof. destruct k as [|x k]; [destruct c; reflexivity|]. unfold shaped. destruct c; reflexivity. Qed.

Definition inner (c : bool) (l : list node) : Prop := forall d t, 1 <= d -> t < d ->
  exists w out t', in_turn (visit c) l (mkPrinter false false d t) = (w ++ out, mkPrinter false false d t') /\ t' < d /\
    chars space w /\ (heads plain_node l = true -> w = "") /\ (0 <= t -> w = if heads is_elem l then pad c d else "") /\
    (l = [] -> out = "") /\ (l <> [] -> heads plain_node l = false -> starts "<" out) /\
    forall w0, chars space w0 -> (0 <= t' -> w0 = "") -> content (out ++ w0) (shaped c d l).

Lemma nl_space : chars space NL.
Proof. intros x [<-|[]]. right. vm_compute. split; discriminate. Qed.
Lemma pad_space c d : chars space (pad c d).
Proof. destruct c; [apply chars_nil|apply indent_space]. Qed.
Lemma break_space c d : chars space (break c d).
Proof. destruct c; [apply chars_nil|]. apply chars_app. split; [apply nl_space|apply indent_space]. Qed.
Lemma front_space c f d t : chars space (front c f d t).
Proof. apply chars_app. split; [destruct (_ && _); [apply nl_space|apply chars_nil]|apply pad_space]. Qed.

(** The rest of the list behind a node which ends with a mark. *)
Lemma rest_content c d l w2 out2 w0 : chars space w2 -> (heads plain_node l = true -> w2 = "") ->
  content (out2 ++ w0) (shaped c d l) -> content ((w2 ++ out2) ++ w0) (shaped c d l).
Proof.
  intros W P C. rewrite append_assoc. destruct (heads plain_node l) eqn:E; [rewrite P by reflexivity; exact C|].
  apply content_ws; [exact C|exact W|]. rewrite shaped_heads. exact E.
Qed.

Lemma inner_mark c l x m : inner c l -> is_elem x = false -> plain_node x = false -> starts "<" m ->
  (forall d t, exists t', (t' = t \/ t' = d - 1) /\ (t' = d - 1 \/ t' = t /\ True) /\
     visit c x (mkPrinter false false d t) = ((if (t <? 0) && negb c && negb (is_text x) then NL ++ print_space d else "") ++ m, mkPrinter false false d t')) ->
  (forall s l, content s l -> content (m ++ s) (x :: l)) -> inner c (x :: l).
Proof.
  intros I Hx Hp Hm V C d t Hd Ht. destruct (V d t) as (t1 & T1 & _ & E). assert (T : t1 < d) by lia.
  destruct (I d t1 Hd T) as (w2 & out2 & t' & E2 & T' & W2 & P2 & _ & _ & _ & C2).
  exists (if (t <? 0) && negb c && negb (is_text x) then NL ++ print_space d else ""), (m ++ w2 ++ out2), t'.
  rewrite turn_cons, E. cbn [fst snd]. rewrite E2. cbn [fst snd]. rewrite !append_assoc. split; [reflexivity|]. split; [exact T'|].
  cbn [heads]. rewrite Hx, Hp. repeat split.
  - destruct (_ && _); [|apply chars_nil]. rewrite spaces_indent. apply (break_space false d).
  - discriminate.
  - intros H0. destruct (Z.ltb_spec t 0); [lia|reflexivity].
  - discriminate.
  - intros _ _. destruct Hm as [r ->]. exists (r ++ w2 ++ out2). apply append_assoc.
  - intros w0 H0 H1. rewrite shaped_other by assumption. rewrite append_assoc. apply C. apply rest_content; [exact W2|exact P2|]. apply C2; assumption.
Qed.

Lemma inner_all c l : writable l -> inner c l.
Proof.
  induction 1 as [|v l Hv Hb Hh _ IH|s l Hs He _ IH|s l Hs He _ IH|s l Hs He H1 H2 _ IH|n a k l Hn Ha Hv _ IHk _ IHl].
  - intros d t Hd Ht. exists "", "", t. cbn [in_turn append heads]. repeat split; try assumption; try discriminate; try apply chars_nil.
    + intros H. contradiction H. reflexivity.
    + intros w0 H0 _. rewrite shaped_nil. apply co_end, H0.
  - intros d t Hd Ht. destruct (IH d (d - 1)) as (w2 & out2 & t' & E2 & T' & W2 & P2 & Q2 & N2 & S2 & C2); [lia|lia|]. specialize (Q2 ltac:(lia)).
    exists "", (print_string true v ++ w2 ++ out2), t'. rewrite turn_cons. cbn [visit]. unfold push_text, seal. cbn [p_opened p_first p_depth p_text fst snd append].
    rewrite E2. cbn [fst snd]. split; [reflexivity|]. split; [exact T'|]. cbn [heads is_elem plain_node]. repeat split; try discriminate; try apply chars_nil.
    intros w0 H0 H1. rewrite shaped_text, <- Q2, !append_assoc, <- (append_assoc (print_string true v)).
    apply co_text.
    + apply print_cooked; [exact Hv|]. rewrite Q2. destruct (heads is_elem l); [|constructor]. destruct c; [constructor|apply indent_cooked].
    + apply print_not_blank, Hb.
    + destruct l as [|x l].
      * left. rewrite N2 by reflexivity. cbn [in_turn] in E2. injection E2 as _ <-. rewrite H1 by lia. reflexivity.
      * right. destruct (S2 ltac:(discriminate) Hh) as [r ->]. exists (r ++ w0). apply append_assoc.
    + apply C2; assumption.
  - apply (inner_mark c l (NText true s) ("<![CDATA[" ++ s ++ "]]>")); try reflexivity; try assumption.
    + exists ("![CDATA[" ++ s ++ "]]>"). reflexivity.
    + intros d t. exists (d - 1). cbn [visit is_text negb]. rewrite andb_false_r. repeat split; tauto.
    + intros s' l' C. rewrite !append_assoc. apply (co_cdata ""); try assumption. apply chars_nil.
  - apply (inner_mark c l (NComment s) ("<!--" ++ s ++ "-->")); try reflexivity; try assumption.
    + exists ("!--" ++ s ++ "-->"). reflexivity.
    + intros d t. exists t. cbn [visit is_text negb]. rewrite andb_true_r. repeat split; try tauto. unfold push_mark, seal. cbn [p_opened p_first p_depth p_text append].
      rewrite andb_true_r. reflexivity.
    + intros s' l' C. rewrite !append_assoc. apply (co_comment ""); try assumption. apply chars_nil.
  - apply (inner_mark c l (NUnknown s) ("<!" ++ s ++ ">")); try reflexivity; try assumption.
    + exists ("!" ++ s ++ ">"). reflexivity.
    + intros d t. exists t. cbn [visit is_text negb]. rewrite andb_true_r. repeat split; try tauto. unfold push_mark, seal. cbn [p_opened p_first p_depth p_text append].
      rewrite andb_true_r. reflexivity.
    + intros s' l' C. rewrite !append_assoc. apply (co_unknown ""); try assumption. apply chars_nil.
  - intros d t Hd Ht. destruct (IHk (d + 1) t) as (wk & outk & tk & Ek & Tk & Wk & Pk & _ & _ & _ & Ck); [lia|lia|].
    pose proof (visit_elem c n a k false d t _ _ Ek) as V. destruct (Z.eqb_spec d 0) as [|_]; [lia|]. rewrite append_nil_r in V.
    set (t1 := if _ =? d then -1 else _) in V.
    assert (T1 : t1 < d). { unfold t1. destruct k; [destruct (Z.eqb_spec t d); lia|destruct (Z.eqb_spec tk d); lia]. }
    destruct (IHl d t1 Hd T1) as (w2 & out2 & t' & E2 & T' & W2 & P2 & _ & _ & _ & C2).
    exists (front c false d t), (("<" ++ n ++ push_attributes a ++ written_kids n k ((wk ++ outk) ++ (if tk <? 0 then break c d else ""))) ++ w2 ++ out2), t'.
    rewrite turn_cons, V. cbn [fst snd]. rewrite E2. cbn [fst snd]. rewrite (append_assoc (front c false d t)). split; [reflexivity|]. split; [exact T'|].
    cbn [heads is_elem plain_node]. repeat split; try discriminate.
    + apply front_space.
    + intros H0. unfold front. destruct (Z.ltb_spec t 0); [lia|reflexivity].
    + intros _ _. eexists. cbn [append]. reflexivity.
    + intros w0 H0 H1. rewrite shaped_elem. rewrite !append_assoc.
      replace ("<" ++ n ++ push_attributes a ++ written_kids n k (wk ++ outk ++ (if tk <? 0 then break c d else "")) ++ w2 ++ out2 ++ w0)
        with ("" ++ "<" ++ n ++ push_attributes a ++ written_kids n (shaped c (d + 1) k) (wk ++ outk ++ (if tk <? 0 then break c d else "")) ++ ((w2 ++ out2) ++ w0))
        by (rewrite shaped_kids, append_assoc; reflexivity).
      apply elem_content; try assumption; [apply chars_nil| |apply rest_content; [exact W2|exact P2|apply C2; assumption]].
      rewrite <- append_assoc. apply rest_content; [exact Wk|exact Pk|]. apply Ck; [destruct (tk <? 0); [apply break_space|apply chars_nil]|].
      intros X. destruct (Z.ltb_spec tk 0); [lia|reflexivity].
Qed.

(** ** The nodes of a document *)

Lemma mark_eq c m f d t : push_mark c m (mkPrinter false f d t) =
  ((if (t <? 0) && negb f && negb c then NL ++ print_space d else "") ++ m, mkPrinter false false d t).
Proof. reflexivity. Qed.

Lemma outer_all c l : writable l -> Forall (fun n => is_text n = false) l -> forall f t, t < 0 ->
  content (fst (in_turn (visit c) l (mkPrinter false f 0 t))) (shaped c 0 l).
Proof.
  induction 1 as [|v l Hv Hb Hh _ IH|s l Hs He _ IH|s l Hs He _ IH|s l Hs He H1 H2 _ IH|n a k l Hn Ha Hv Wk IHk Wl IHl]; intros F f t Ht;
    try (apply Forall_cons_iff in F; destruct F as [F0 F]; try discriminate F0).
  - rewrite shaped_nil. apply co_end, chars_nil.
  - rewrite turn_cons, shaped_other by reflexivity. cbn [visit]. rewrite mark_eq. cbn [fst snd].
    rewrite !append_assoc. apply (co_comment (if (t <? 0) && negb f && negb c then NL ++ print_space 0 else "")); try assumption; [|apply IH; assumption].
    destruct (_ && _); [|apply chars_nil]. rewrite spaces_indent. apply (break_space false 0).
  - rewrite turn_cons, shaped_other by reflexivity. cbn [visit]. rewrite mark_eq. cbn [fst snd].
    rewrite !append_assoc. apply (co_unknown (if (t <? 0) && negb f && negb c then NL ++ print_space 0 else "")); try assumption; [|apply IH; assumption].
    destruct (_ && _); [|apply chars_nil]. rewrite spaces_indent. apply (break_space false 0).
  - destruct (inner_all c k Wk (0 + 1) t) as (wk & outk & tk & Ek & Tk & Wk' & Pk & _ & _ & _ & Ck); [lia|lia|].
    pose proof (visit_elem c n a k f 0 t _ _ Ek) as V. rewrite turn_cons, V. cbn [fst snd]. change (0 =? 0) with true. cbv iota.
    set (t1 := if _ =? 0 then -1 else _). assert (T1 : t1 < 0). { unfold t1. destruct k; [destruct (Z.eqb_spec t 0); lia|destruct (Z.eqb_spec tk 0); lia]. }
    rewrite shaped_elem, !append_assoc. rewrite <- (shaped_kids c (0 + 1)).
    apply elem_content; try assumption; [apply front_space| |].
    + rewrite <- append_assoc. apply rest_content; [exact Wk'|exact Pk|]. apply Ck; [destruct (tk <? 0); [apply break_space|apply chars_nil]|].
      intros X. destruct (Z.ltb_spec tk 0); [lia|reflexivity].
    + apply content_ws; [apply IHl; assumption|destruct c; [apply chars_nil|apply nl_space]|]. rewrite shaped_heads.
      destruct F as [|x l Fx _]; [reflexivity|]. destruct x as [? ? ?|[|] ?|?|?|?]; try discriminate Fx; reflexivity.
Qed.

Lemma shaped_outer c l : Forall (fun n => is_text n = false) l -> shaped c 0 l = if c then l else indented l.
Proof.
  intros F. destruct c; [reflexivity|]. induction F as [|x l Fx F IH]; [reflexivity|].
  destruct x as [? ? ?|[|] ?|?|?|?]; try discriminate Fx; cbn [shaped indented_by indented map] in *; f_equal; exact IH.
Qed.

Lemma not_texts l : Forall (fun n => is_text n = false) l -> Forall (fun n => is_text n = false) (indented l).
Proof. intros F. unfold indented. apply Forall_map. eapply Forall_impl; [|exact F]. intros x. destruct x; cbn [indented_node is_text]; auto. Qed.
Theorem saved_document c b l : writable_doc l -> document (save c b l) (if c then l else indented l).
Proof.
  intros H. unfold save. assert (B : (if b then bom else "") = "" \/ (if b then bom else "") = bom) by (destruct b; tauto).
  destruct H as [l N W F|t l Ht He W F].
  - rewrite <- shaped_outer by exact F. apply do_plain.
    + exact B.
    + apply outer_all; [exact W|exact F|lia].
    + destruct l as [|x l]; [contradiction|]. destruct c; discriminate.
    + rewrite shaped_outer by exact F. destruct c; [exact F|]. apply not_texts, F.
  - rewrite turn_cons. unfold new_printer. cbn [visit]. rewrite mark_eq. cbn [fst snd]. change ((-1 <? 0) && negb true) with false. cbn [andb].
    replace (if c then NDecl t :: l else indented (NDecl t :: l)) with (NDecl t :: shaped c 0 l) by (rewrite shaped_outer by exact F; destruct c; reflexivity).
    rewrite !append_assoc. apply (do_decl _ ""); try assumption.
    + apply chars_nil.
    + apply outer_all; [exact W|exact F|lia].
    + rewrite shaped_outer by exact F. destruct c; [exact F|]. apply not_texts, F.
Qed.
