(** Property C73: settings kept in an XML file.

    Reading guide.  [lookup fs file root path] (M_Case.v) is [get_xmlnode(...get_xmlnode(load_xml(file, root), name1)..., namek)] of
    liton_sp::xml, where [fs] are the files that can be read.  [int_setting ... d] is an [int] with the value [d] after QueryIntText of the node
    found, [double_setting] the same for a [double] (as a bit pattern), [text_setting] what GetText gives.
    [document s l]: the text [s] is a layout of the nodes [l] (Spec_XmlDoc.v; see P_XmlDoc.v).  Spec_Case.v: [first l name c]: [c] is the first
    element with this name among [l]; [missing l name]: there is none; [leads n path c]: going from [n] to the first element with each name in turn
    one comes to [c].  [says_int t n], [says_double t neg a b]: the text [t] is an integer or a decimal number as people write it; [nearest]: no
    [double] is nearer.  [grown more [] l l']: nodes have been added to [l], no element in front of the first one with its name, and nothing in
    front of a text an element begins with. *)

From Coq Require Import ZArith Ascii String List Bool Lia.
From Verif Require Import Base M_Bytes M_TecZone M_TecFile Spec_Xml M_Scan M_Xml L_XmlSeq L_XmlText M_ReadXml Spec_XmlDoc L_XmlDoc M_XmlPrint Spec_Save L_Save
  M_Case Spec_Case L_ScanF L_Literal L_Case.
Import ListNotations.
Open Scope list_scope.
Open Scope Z_scope.

(** The node found is the one the path leads to; a node is found whenever there is one. *)
Theorem C73_found fs file s l root path c : fs (c_str file) = Some (list_ascii_of_string s) -> document s l ->
  (lookup fs file root path = Ok c <-> exists r, first l (c_str root) r /\ leads r path c).
Proof. intros F D. exact (lookup_found fs file root s l path F (document_loads s l D) c). Qed.
Print Assumptions C73_found.

(** Otherwise the exception names the first name that is missing, and where. *)
Theorem C73_throws fs file s l root path e : fs (c_str file) = Some (list_ascii_of_string s) -> document s l ->
  (lookup fs file root path = Err e <->
   missing l (c_str root) /\ e = ETec ("node """ ++ root ++ """ not found in " ++ file)%string \/
   exists r p name p' t a k, first l (c_str root) r /\ path = p ++ name :: p' /\ leads r p (NElem t a k) /\ missing k (c_str name) /\
     e = ETec ("node """ ++ name ++ """ not found in node """ ++ t ++ """")%string).
Proof.
  intros F D. rewrite (lookup_throws fs file root s l path F (document_loads s l D) e). unfold lost. split.
  - intros [H|(r & H & p & nm & p' & t & a & k & X)]; [left; exact H|right]. exists r, p, nm, p', t, a, k. tauto.
  - intros [H|(r & p & nm & p' & t & a & k & H & X)]; [left; exact H|right]. exists r. split; [exact H|]. exists p, nm, p', t, a, k. exact X.
Qed.
Print Assumptions C73_throws.

(** Nothing is undefined, whatever the file holds and even if there is none. *)
Theorem C73_defined fs file root path : lookup fs file root path <> UB /\
  (fs (c_str file) = None -> lookup fs file root path = Err (ETec ("case file " ++ file ++ " not found")%string)).
Proof. split; [exact (lookup_defined fs file root path)|]. intros F. unfold lookup, load_xml. rewrite F. reflexivity. Qed.
Print Assumptions C73_defined.

(** An integer is read as what it says, whatever stands behind it; without a text the default remains. *)
Theorem C73_int fs file s l root path r t a k d : fs (c_str file) = Some (list_ascii_of_string s) -> document s l ->
  first l (c_str root) r -> leads r path (NElem t a k) ->
  (forall cd v k' n, k = NText cd v :: k' -> says_int v n -> in_int n -> int_setting fs file root path d = Ok n) /\
  (k = [] -> int_setting fs file root path d = Ok d).
Proof.
  intros F D R1 R2. pose proof (proj2 (C73_found fs file s l root path _ F D) (ex_intro _ r (conj R1 R2))) as E. unfold int_setting. rewrite E. cbn [rbind].
  split.
  - intros cd v k' n -> H I. unfold q_int_text, get_text. cbn [kids]. rewrite (says_int_scan v n H I). reflexivity.
  - intros ->. reflexivity.
Qed.
Print Assumptions C73_int.

(** A decimal number is read as the [double] nearest to it. *)
Theorem C73_double fs file s l root path r t a cd v k' d neg x y : fs (c_str file) = Some (list_ascii_of_string s) -> document s l ->
  first l (c_str root) r -> leads r path (NElem t a (NText cd v :: k')) -> says_double v neg x y -> in_double x y ->
  exists z, double_setting fs file root path d = Ok z /\ nearest z neg x y.
Proof.
  intros F D R1 R2 H I. pose proof (proj2 (C73_found fs file s l root path _ F D) (ex_intro _ r (conj R1 R2))) as E. unfold double_setting. rewrite E. cbn [rbind].
  destruct (says_double_scan v neg x y H) as (S & X & Y). unfold q_double_text, get_text. cbn [kids]. rewrite S. eexists. split; [reflexivity|].
  exact (round_near neg x y X Y I).
Qed.
Print Assumptions C73_double.

(** What has been found is still found after nodes and attributes have been added to the file, with the same text and attributes. *)
Theorem C73_more fs fs' file s s' l l' root path c :
  fs (c_str file) = Some (list_ascii_of_string s) -> fs' (c_str file) = Some (list_ascii_of_string s') -> document s l -> document s' l' ->
  grown more [] l l' -> lookup fs file root path = Ok c ->
  exists c', lookup fs' file root path = Ok c' /\ tag c' = tag c /\ (forall t, get_text c = Some t -> get_text c' = Some t) /\
    (forall x v, attribute (attrs c) x = Some v -> attribute (attrs c') x = Some v).
Proof.
  intros F F' D D' G H. destruct (lookup_more fs fs' file root s s' l l' path c F F' (document_loads s l D) (document_loads s' l' D') G H) as (c' & E & M).
  exists c'. split; [exact E|]. split; [exact (more_tag c c' M)|]. split; [intros t; exact (more_text c c' t M)|intros x v; exact (more_attr c c' x v M)].
Qed.
Print Assumptions C73_more.

(** After the file has been loaded and saved with TinyXML2 everything is as before. *)
Theorem C73_saved fs fs' file x l c b root path : fs (c_str file) = Some (list_ascii_of_string x) -> load_text x = inl l -> tidy l -> usual l ->
  c = true \/ unmixed l -> fs' (c_str file) = Some (list_ascii_of_string (save c b l)) -> lookup fs' file root path = lookup fs file root path.
Proof.
  intros F L T U M F'. exact (lookup_same fs fs' file root x (save c b l) l path F F' L (loaded_same x l c b L T U M)).
Qed.
Print Assumptions C73_saved.

(** ** An example *)

Definition case_file : string :=
  "<?xml version='1.0'?><case><!-- grid --><grid type='a'><nx> 100 </nx><nx>7</nx><dt>-2.5e-3</dt><note/></grid><steps>1e3</steps></case>".
Definition case_fs : string -> option bytes := fun p => if String.eqb p "case.xml" then Some (list_ascii_of_string case_file) else None.
Definition case_doc : list node :=
  [NDecl "xml version='1.0'";
   NElem "case" []
     [NComment " grid ";
      NElem "grid" [("type", "a")]%string
        [NElem "nx" [] [NText false " 100 "]; NElem "nx" [] [NText false "7"]; NElem "dt" [] [NText false "-2.5e-3"]; NElem "note" [] []];
      NElem "steps" [] [NText false "1e3"]]].

(** The texts of numbers other than integers are not refused by QueryIntText: [1e3] is 1, and what is no number at all leaves the default. *)
Theorem C73_number_refuted : exists fs file, 
  text_setting fs file "case" ["steps"%string] = Ok (Some "1e3"%string) /\
  double_setting fs file "case" ["steps"%string] 0 = Ok (int_to_f64 1000) /\ int_setting fs file "case" ["steps"%string] 0 = Ok 1.
Proof. exists case_fs, "case.xml"%string. split; [|split]; vm_compute; reflexivity. Qed.
Print Assumptions C73_number_refuted.

Lemma num_ex : numeral 10 "100" 100.
Proof.
  assert (D0 : digit_of 10 "0" 0) by (left; split; [vm_compute; split; discriminate|reflexivity]).
  assert (D1 : digit_of 10 "1" 1) by (left; split; [vm_compute; split; discriminate|reflexivity]).
  exact (nu_more 10 "10" 10 "0" 0 (nu_more 10 "1" 1 "0" 0 (nu_one 10 "1" 1 D1) D0) D0).
Qed.
Example C73_ex : case_fs (c_str "case.xml") = Some (list_ascii_of_string case_file) /\ load_text case_file = inl case_doc /\
  (exists r, first case_doc "case" r /\ leads r ["grid"; "nx"]%string (NElem "nx" [] [NText false " 100 "])) /\ says_int " 100 " 100 /\
  int_setting case_fs "case.xml" "case" ["grid"; "nx"]%string 0 = Ok 100 /\
  int_setting case_fs "case.xml" "case" ["grid"; "note"]%string 5 = Ok 5 /\
  lookup case_fs "case.xml" "case" ["grid"; "ny"; "x"]%string = Err (ETec "node ""ny"" not found in node ""grid""").
Proof.
  split; [vm_compute; reflexivity|]. split; [vm_compute; reflexivity|]. split.
  - eexists. split.
    + eexists [_], []. split; [reflexivity|]. split; [reflexivity|]. repeat constructor. discriminate.
    + apply le_down with (c := NElem "grid" [("type", "a")]%string
        [NElem "nx" [] [NText false " 100 "]; NElem "nx" [] [NText false "7"]; NElem "dt" [] [NText false "-2.5e-3"]; NElem "note" [] []]).
      * eexists [_], [_]. split; [reflexivity|]. split; [reflexivity|]. repeat constructor. discriminate.
      * apply le_down with (c := NElem "nx" [] [NText false " 100 "]); [|constructor].
        eexists [], _. split; [reflexivity|]. split; [reflexivity|constructor].
  - split; [|split; [|split]; vm_compute; reflexivity].
    apply (si " " "" false "100" 100 " ").
    + intros c [<-|[]]. left. reflexivity.
    + right. auto.
    + exact num_ex.
    + intros c r E. injection E as <- _. vm_compute. intros [H _]. apply H. reflexivity.
Qed.
(** A decimal number. *)
Example C73_double_ex : says_double "-2.5e-3" true 25 10000 /\ in_double 25 10000.
Proof.
  split.
  - assert (D2 : digit_of 10 "2" 2) by (left; split; [vm_compute; split; discriminate|reflexivity]).
    assert (D5 : digit_of 10 "5" 5) by (left; split; [vm_compute; split; discriminate|reflexivity]).
    assert (D3 : digit_of 10 "3" 3) by (left; split; [vm_compute; split; discriminate|reflexivity]).
    apply (sd "" "-" true "2" "." "5" 25 "e-3" (-3) "").
    + intros c [].
    + left. auto.
    + exact (nu_more 10 "2" 2 "5" 5 (nu_one 10 "2" 2 D2) D5).
    + left. reflexivity.
    + exact (ex_some "e" "-" true "3" 3 (or_introl eq_refl) (or_introl (conj eq_refl eq_refl)) (nu_one 10 "3" 3 D3)).
    + intros c r E. discriminate E.
  - unfold in_double. apply Z.leb_le. vm_compute. reflexivity.
Qed.
(** A file that has grown. *)
Example C73_more_ex : grown more [] [NElem "case" [] [NElem "nx" [] [NText false "1"]]]
  [NComment "c"; NElem "case" [("v", "2")]%string [NElem "ny" [] []; NElem "nx" [] [NText false "1"; NComment "x"]; NElem "nx" [] []]].
Proof.
  apply gr_new; [left; reflexivity|]. apply gr_keep; [|apply gr_nil]. apply mo_elem; [discriminate| |discriminate].
  apply gr_new; [right; right; intros [H|[]]; discriminate H|]. apply gr_keep.
  - apply mo_elem; [discriminate| |].
    + apply gr_keep; [apply mo_same|]. apply gr_new; [left; reflexivity|]. apply gr_nil.
    + intros c v l E. injection E as <- <- <-. eauto.
  - apply gr_new; [right; left; left; reflexivity|]. apply gr_nil.
Qed.
