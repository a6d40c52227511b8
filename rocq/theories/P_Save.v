(** Property C70: XML files that are loaded and saved with TinyXML2.

    Reading guide.  [load_text x] (M_Xml.v) is what XMLDocument::LoadFile makes of a file that holds [x]: [inl] the nodes of the document or
    [inr] an error.  [save compact b l] (M_XmlPrint.v) is the text XMLDocument::SaveFile writes, where [b] is whether to write a byte order
    mark.  Spec_Save.v: [writable_doc l]: the nodes [l] are something XML can express.  [usual l]: a document without texts outside of its
    elements and without a second declaration; [tidy l]: without blank texts and carriage returns (both come only from character references).
    [unmixed l]: no text directly in front of an element.  [indented l]: [l], where each text directly in front of an element has the spaces of its
    indentation appended.  [resaved c x]: what the file holds after it has been loaded and saved.  [read_log]: see P_Xml.v. *)

From Coq Require Import ZArith Ascii String List Bool Lia.
From Verif Require Import Base M_Flags M_Bytes M_TecZone M_TecFile Spec_Tec Spec_Plt Spec_Aux Spec_Xml P_TecFile
  L_Plt M_Scan M_Xml L_XmlSeq L_XmlText M_ReadXml L_XmlLog P_Xml Spec_XmlDoc L_XmlDoc L_XmlEdit P_XmlDoc M_XmlPrint Spec_Save L_XmlPrint L_XmlShape L_Save.
Import ListNotations.
Open Scope list_scope.
Open Scope Z_scope.

(** Every document XML can express is saved to a text that loads as this document, up to spaces between a text and an element behind it; in compact
    mode exactly. *)
Theorem C70_saved c b l : writable_doc l -> load_text (save c b l) = inl (if c then l else indented l).
Proof. exact (saved_loads c b l). Qed.
Print Assumptions C70_saved.

(** This goes for every document that has been loaded from a file, whatever its layout, if only it is tidy and usual. *)
Theorem C70_loaded x l c b : load_text x = inl l -> tidy l -> usual l -> load_text (save c b l) = inl (if c then l else indented l).
Proof. exact (loaded_saved x l c b). Qed.
Print Assumptions C70_loaded.

(** Without texts in front of elements nothing changes at all: the saved file loads as the same document, has a byte order mark if the original has, and is not changed by being loaded and saved
    any number of times. *)
Theorem C70_fixed x l c : load_text x = inl l -> tidy l -> usual l -> c = true \/ unmixed l ->
  exists y, resaved c x = Some y /\ load_text y = inl l /\ has_bom y = has_bom x /\ forall n, resaved_times c n y = Some y.
Proof. exact (resaved_fixed x l c). Qed.
Print Assumptions C70_fixed.

(** Then read_xml reads from the saved file what it reads from the original: the same log, the same error, or both times undefined. *)
Theorem C70_read fs fs' p x l c b : fs (c_str p) = Some (list_ascii_of_string x) -> load_text x = inl l -> tidy l -> usual l -> c = true \/ unmixed l ->
  fs' (c_str p) = Some (list_ascii_of_string (save c b l)) -> read_log fs' p = read_log fs p.
Proof. exact (saved_log fs fs' p x l c b). Qed.
Print Assumptions C70_read.

(** The logs write_plt leaves are such documents. *)
Theorem C70_logs e f s g u depth :
  file_wf f -> plt_size f < 2 ^ 63 -> write_plt e f = Ret (s, g) u -> xml_plain f -> chars plain (e_begin e) ->
  exists t l, xml_file g depth = Ok t /\ load_text t = inl l /\ tidy l /\ usual l /\ unmixed l.
Proof. exact (own_log e f s g u depth). Qed.
Print Assumptions C70_logs.

(** A text in front of an element grows with every save, without bound. *)
Theorem C70_drift x a b v : xml_name a -> xml_name b -> raw_text v -> ~ chars space v ->
  load_text x = inl [NElem a [] [NText false v; NElem b [] []]] ->
  forall n, exists y, resaved_times false n x = Some y /\
    load_text y = inl [NElem a [] [NText false (v ++ blanks (4 * n))%string; NElem b [] []]].
Proof. exact (resaved_drift x a b v). Qed.
Print Assumptions C70_drift.

(** Not every loaded document survives: blank texts vanish, carriage returns become line feeds, and a text outside of the elements makes a file
    that does not load. *)
Theorem C70_all_refuted :
  (exists x y l l', load_text x = inl l /\ usual l /\ unmixed l /\ resaved false x = Some y /\ load_text y = inl l' /\
     l = [NElem "a" [] [NText false " "]] /\ l' = [NElem "a" [] []]) /\
  (exists x y l l', load_text x = inl l /\ usual l /\ unmixed l /\ resaved false x = Some y /\ load_text y = inl l' /\
     l = [NElem "a" [("b"%string, String CR "")] []] /\ l' = [NElem "a" [("b"%string, String LF "")] []]) /\
  (exists x y l e, load_text x = inl l /\ tidy l /\ unmixed l /\ l <> [] /\ resaved false x = Some y /\ load_text y = inr e).
Proof.
  split; [|split].
  - exists "<a>&#32;</a>"%string. do 3 eexists. split; [vm_compute; reflexivity|]. split; [repeat constructor; discriminate|].
    split; [repeat first [apply un_elem|apply un_other|apply un_nil|reflexivity]|]. split; [vm_compute; reflexivity|]. split; [vm_compute; reflexivity|].
    split; reflexivity.
  - exists "<a b='&#13;'/>"%string. do 3 eexists. split; [vm_compute; reflexivity|]. split; [repeat constructor; discriminate|].
    split; [repeat first [apply un_elem|apply un_nil]|]. split; [vm_compute; reflexivity|]. split; [vm_compute; reflexivity|].
    split; reflexivity.
  - exists "<!-- c -->x</a>"%string, "<!-- c -->x"%string, [NComment " c "; NText false "x"], XML_ERROR_PARSING_TEXT.
    split; [vm_compute; reflexivity|]. split.
    { apply ti_other; [reflexivity|reflexivity|]. apply ti_text; [char_list|not_blank|apply ti_nil]. }
    split.
    { apply un_other; [reflexivity|intros K; discriminate K|]. apply un_other; [reflexivity|reflexivity|apply un_nil]. }
    split; [intros K; discriminate K|]. split; vm_compute; reflexivity.
Qed.
Print Assumptions C70_all_refuted.

(** ** Examples *)

(** The document of C64_layout_ex: declaration, comments, entities, CDATA, [<!...>], a byte order mark. *)
Definition save_ex : list node :=
  [NDecl "xml version='1.0'"; NComment " a > b ";
   NElem "File" [("FileName", "a's"); ("n", "1")]%string
     [NElem "Title" [] [NText false "x < z"]; NElem "Skip" [] []; NElem "Note" [] [NText true "a < b"]; NUnknown "DOCTYPE x"]].
Example C70_ex : load_text layout_ex = inl save_ex /\ tidy save_ex /\ usual save_ex /\ unmixed save_ex /\ has_bom layout_ex = true /\
  resaved false layout_ex = Some (bom ++ "<?xml version='1.0'?>" ++ NL ++ "<!-- a > b -->" ++ NL ++ "<File FileName=""a&apos;s"" n=""1"">" ++ NL
    ++ "    <Title>x &lt; z</Title>" ++ NL ++ "    <Skip/>" ++ NL ++ "    <Note><![CDATA[a < b]]></Note>" ++ NL ++ "    <!DOCTYPE x>" ++ NL ++ "</File>" ++ NL)%string.
Proof.
  split; [vm_compute; reflexivity|]. split; [|split; [|split; [|split; vm_compute; reflexivity]]].
  - repeat first [apply ti_nil | apply ti_elem | apply ti_text | apply ti_other; [reflexivity|reflexivity|]]; try char_list; try not_blank.
    all: repeat (apply Forall_cons; [char_list|]); apply Forall_nil.
  - split; [discriminate|]. split; repeat constructor.
  - repeat first [apply un_nil | apply un_elem | apply un_other; [reflexivity|first [discriminate|reflexivity]|]].
Qed.
(** A text in front of an element. *)
Example C70_drift_ex : load_text "<a>t<b/></a>" = inl [NElem "a" [] [NText false "t"; NElem "b" [] []]] /\
  resaved false "<a>t<b/></a>" = Some ("<a>t    <b/></a>" ++ NL)%string.
Proof. split; vm_compute; reflexivity. Qed.
