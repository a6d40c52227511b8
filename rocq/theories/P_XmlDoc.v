(** Property C64: logs that have been edited by hand or written by another program.

    Reading guide.  [document s l] (Spec_XmlDoc.v): the text [s] is a layout of the nodes [l]: white space where it does not count,
    attributes in either kind of quotes, entities, characters by their numbers, comments, CDATA sections, a byte order mark, a declaration.
    [load_text s] (M_Xml.v) is what XMLDocument::LoadFile makes of the file: [inl] the nodes of the document or
    [inr] an error.  [edit RDoc (doc l) (doc l')]: the nodes [l'] come from [l] by steps each of which changes something a log does not consist of.
    [read_log], [same_log], [xml_safe]: see P_Xml.v. *)

From Coq Require Import ZArith Ascii String List Bool Lia.
From Verif Require Import Base M_Flags M_Bytes M_TecZone M_TecFile Spec_Tec Spec_Plt Spec_Aux Spec_Xml P_TecFile
  L_Plt M_Scan M_Xml L_XmlSeq L_XmlText M_ReadXml L_XmlLog P_Xml Spec_XmlDoc L_XmlDoc L_XmlEdit.
Import ListNotations.
Open Scope list_scope.
Open Scope Z_scope.

(** Every layout of a document is read as this document. *)
Theorem C64_layout s l : document s l -> load_text s = inl l.
Proof. exact (document_loads s l). Qed.
Print Assumptions C64_layout.

(** Two files whose documents differ by such edits give the same log, or both the same error, or are both undefined. *)
Theorem C64_edit fs fs' p s s' l l' :
  load_text s = inl l -> load_text s' = inl l' -> edit RDoc (doc l) (doc l') ->
  fs (c_str p) = Some (list_ascii_of_string s) -> fs' (c_str p) = Some (list_ascii_of_string s') ->
  read_log fs' p = read_log fs p.
Proof. intros L L' E F F'. symmetry. exact (read_log_eq fs fs' p s s' l l' F F' L L' E). Qed.
Print Assumptions C64_edit.

(** C43 for a log that has been edited and written in whatever layout (by C64_layout [load_text t' = inl l'] holds for every layout [t'] of [l']). *)
Theorem C64_edited_log e f s g u depth :
  file_wf f -> plt_size f < 2 ^ 63 -> write_plt e f = Ret (s, g) u -> calm e -> xml_safe f -> plain_text (e_begin e) ->
  exists t g' l, xml_file g depth = Ok t /\ same_log g g' /\ load_text t = inl l /\
    forall l' t', edit RDoc (doc l) (doc l') -> load_text t' = inl l' ->
    forall fs p, fs (c_str p) = Some (list_ascii_of_string t') -> read_log fs p = Ok g'.
Proof. exact (edited_log e f s g u depth). Qed.
Print Assumptions C64_edited_log.

(** ** Comments in front of a text *)

Definition title_split (t : string) : string * string :=
  match parse_text "<Title>" t with Some x => x | None => (""%string, ""%string) end.
Definition spoiled (f : tfile) : bool :=
  match write_plt env_ex f with
  | Ret (_, g) _ =>
      match xml_file g 0 with
      | Ok t =>
          let (a, b) := title_split t in
          String.eqb t (a ++ "<Title>" ++ b) &&
          match read_log (fun _ => Some (list_ascii_of_string t)) "out.xml",
                read_log (fun _ => Some (list_ascii_of_string (a ++ "<Title><!-- draft -->" ++ b))) "out.xml" with Ok _, UB => true | _, _ => false end
      | _ => false
      end
  | _ => false
  end.

(** A comment in front of the title makes read_xml undefined: GetText gives the null pointer. *)
Theorem C64_comment_refuted :
  exists e f s g t a b, file_wf f /\ plt_size f < 2 ^ 63 /\ calm e /\ xml_safe f /\ plain_text (e_begin e) /\ write_plt e f = Ret (s, g) tt /\
    xml_file g 0 = Ok t /\ t = (a ++ "<Title>" ++ b)%string /\
    (exists g', read_log (fun _ => Some (list_ascii_of_string t)) "out.xml" = Ok g') /\
    read_log (fun _ => Some (list_ascii_of_string (a ++ "<Title><!-- draft -->" ++ b))) "out.xml" = UB.
Proof.
  assert (H : spoiled (xml_file_ex "my title" "u" third) = true) by (vm_compute; reflexivity). unfold spoiled in H.
  destruct C43_ex as (H1 & H2 & _ & H4 & H5 & H6).
  destruct (write_plt env_ex _) as [[s g] []| |] eqn:E; try discriminate H. destruct (xml_file g 0) as [t| |] eqn:E2; try discriminate H.
  destruct (title_split t) as [a b]. apply andb_prop in H. destruct H as [Ha Hb]. apply String.eqb_eq in Ha.
  exists env_ex, (xml_file_ex "my title" "u" third), s, g, t, a, b. repeat (split; [assumption|]).
  destruct (read_log (fun _ => Some (list_ascii_of_string t)) "out.xml") as [g'| |]; try discriminate Hb. split; [eauto|].
  destruct (read_log _ _) as [g2| |]; (discriminate Hb || reflexivity).
Qed.
Print Assumptions C64_comment_refuted.

(** ** Examples *)

Definition layout_ex : string := (bom ++ "<?xml version='1.0'?>" ++ NL ++ "<!-- a > b -->" ++ NL
  ++ "<File  FileName = 'a&apos;s' n=""1"" >" ++ NL ++ "<Title>x &lt; &#x7A;</Title ><Skip/><Note><![CDATA[a < b]]></Note> <!DOCTYPE x> </File>" ++ NL)%string.

Ltac ends_ex := let a := fresh in let b := fresh in let H := fresh in intros a b H; cbn [append] in H;
  repeat (destruct a as [|? a]; cbn [append] in H; [first [discriminate H | injection H as H; destruct b; [reflexivity|discriminate H]]|first [discriminate H | injection H as _ H]]).
Ltac cooked_ex := repeat (apply ck_char; [vm_compute; intuition congruence|]); apply ck_nil.
Ltac no_start := let r := fresh in let H := fresh in intros [r H]; discriminate H.

Example C64_layout_ex : document layout_ex
  [NDecl "xml version='1.0'"; NComment " a > b ";
   NElem "File" [("FileName", "a's"); ("n", "1")]%string
     [NElem "Title" [] [NText false "x < z"]; NElem "Skip" [] []; NElem "Note" [] [NText true "a < b"]; NUnknown "DOCTYPE x"]].
Proof.
  refine (do_decl bom "" "xml version='1.0'" (NL ++ "<!-- a > b -->" ++ NL
    ++ "<File  FileName = 'a&apos;s' n=""1"" >" ++ NL ++ "<Title>x &lt; &#x7A;</Title ><Skip/><Note><![CDATA[a < b]]></Note> <!DOCTYPE x> </File>" ++ NL)
    _ (or_intror eq_refl) ltac:(char_list) ltac:(char_list) ltac:(ends_ex) _ _); [|all_ex reflexivity].
  refine (co_comment NL " a > b " (NL ++ "<File  FileName = 'a&apos;s' n=""1"" >" ++ NL ++ "<Title>x &lt; &#x7A;</Title ><Skip/><Note><![CDATA[a < b]]></Note> <!DOCTYPE x> </File>" ++ NL)
    _ ltac:(char_list) ltac:(char_list) ltac:(ends_ex) _).
  refine (co_elem NL "File" "  FileName = 'a&apos;s' n=""1"" " _ (NL ++ "<Title>x &lt; &#x7A;</Title ><Skip/><Note><![CDATA[a < b]]></Note> <!DOCTYPE x> ")
    _ "" NL [] ltac:(char_list) ltac:(name_ex "F"%char "ile"%string) _ _ _ ltac:(char_list) (co_end NL ltac:(char_list))).
  - refine (as_attr "  " "FileName = 'a&apos;s'" _ " n=""1"" " _ ltac:(char_list) ltac:(discriminate) _ _).
    + refine (al_single "FileName" " " " " "a&apos;s" "a's" ltac:(name_ex "F"%char "ileName"%string) ltac:(char_list) ltac:(char_list) _ ltac:(char_list)).
      apply ck_char; [vm_compute; intuition congruence|]. apply (ck_entity "apos" "'" "s" "s"); [cbn; tauto|]. cooked_ex.
    + refine (as_attr " " "n=""1""" _ " " [] ltac:(char_list) ltac:(discriminate) _ (as_end " " ltac:(char_list))).
      refine (al_double "n" "" "" "1" "1" ltac:(name_ex "n"%char ""%string) ltac:(char_list) ltac:(char_list) _ ltac:(char_list)). cooked_ex.
  - cbn. repeat constructor; cbn; intuition discriminate.
  - refine (co_elem NL "Title" "" [] "x &lt; &#x7A;" _ " " "<Skip/><Note><![CDATA[a < b]]></Note> <!DOCTYPE x> " _
      ltac:(char_list) ltac:(name_ex "T"%char "itle"%string) (as_end "" ltac:(char_list)) (NoDup_nil _) _ ltac:(char_list) _).
    + refine (co_text "x &lt; &#x7A;" "x < z" "" [] _ ltac:(not_blank) (or_introl eq_refl) (co_end "" ltac:(char_list))).
      do 2 (apply ck_char; [vm_compute; intuition congruence|]). apply (ck_entity "lt" "<" " &#x7A;" " z"); [cbn; tauto|].
      apply ck_char; [vm_compute; intuition congruence|]. apply (ck_hex "7A" 122 "z" "" ""); [|apply (en_1 122); lia|apply ck_nil].
      apply (nu_more 16 "7" 7 "A" 10); [apply nu_one|]; unfold digit_of; cbn; lia.
    + refine (co_closed "" "Skip" "" [] "<Note><![CDATA[a < b]]></Note> <!DOCTYPE x> " _
        ltac:(char_list) ltac:(name_ex "S"%char "kip"%string) (as_end "" ltac:(char_list)) (NoDup_nil _) _).
      refine (co_elem "" "Note" "" [] "<![CDATA[a < b]]>" _ "" " <!DOCTYPE x> " _
        ltac:(char_list) ltac:(name_ex "N"%char "ote"%string) (as_end "" ltac:(char_list)) (NoDup_nil _) _ ltac:(char_list) _).
      * exact (co_cdata "" "a < b" "" [] ltac:(char_list) ltac:(char_list) ltac:(ends_ex) (co_end "" ltac:(char_list))).
      * exact (co_unknown " " "DOCTYPE x" " " [] ltac:(char_list) ltac:(char_list) ltac:(ends_ex) ltac:(no_start) ltac:(no_start) (co_end " " ltac:(char_list))).
Qed.

(** A log with a comment at the top and another attribute: the hypotheses of C64_edit and, with the log of C43_ex, those of C64_edited_log. *)
Definition note_ex : string := "<!-- checked -->".
Example C64_ex : exists s g t y l l', let f := xml_file_ex "my title" "u" third in
  file_wf f /\ plt_size f < 2 ^ 63 /\ write_plt env_ex f = Ret (s, g) tt /\ calm env_ex /\ xml_safe f /\ plain_text (e_begin env_ex) /\
  xml_file g 0 = Ok t /\ t = (xml_line ++ y)%string /\ load_text t = inl l /\
  load_text (xml_line ++ note_ex ++ y) = inl l' /\ l' <> l /\ edit RDoc (doc l) (doc l').
Proof.
  destruct C43_ex as (H1 & H2 & (s & g & H3) & H4 & H5 & H6). cbv zeta. exists s, g.
  destruct (annotated env_ex _ s g tt 0 " checked " H1 H2 H3 (proj1 H5) (proj1 H6) ltac:(char_list) ltac:(ends_ex)) as (y & dn & E1 & E2 & E3).
  exists (xml_line ++ y)%string, y. eexists. eexists. repeat (split; [assumption || reflexivity|]). split; [exact E2|]. split; [exact E3|].
  split; [discriminate|]. apply (ed_note RDoc "" [] [dn] (NComment " checked ") [L_XmlText.file_node g]); [reflexivity|left; reflexivity].
Qed.
