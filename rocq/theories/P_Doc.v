(** Property C68: what read_xml makes of any XML document.

    Reading guide (see also P_Xml.v).  [file_says n g] (Spec_Doc.v) says element by element what the element
    [n] must hold for the log to be [g]: which children, with which texts and numbers, the first of several
    with the same name counting.  [log_short g]: the texts fit the buffers of 200 characters.  [log_eq]: equal
    in all that an XML log keeps.  [load_text] is the parser (C64 says what it gives for a document). *)

From Coq Require Import ZArith Ascii String List Bool Lia.
From Verif Require Import Base M_Bytes M_TecZone M_TecFile Spec_Tec Spec_Plt Spec_Aux Spec_Xml Spec_Doc L_Base L_Aux L_Doc M_Scan M_Xml M_ReadXml.
Import ListNotations.
Open Scope string_scope.
Open Scope list_scope.
Open Scope Z_scope.

(** C68: whatever the element, reading it either gives a log which says what the element says, or is undefined;
    it is defined exactly if there is a log which the element says and whose texts fit.  It never throws. *)
Theorem C68_defined n :
  (exists g, read_xml n = Ok g /\ file_says n g /\ log_short g) \/
  (read_xml n = UB /\ forall g, file_says n g -> ~ log_short g).
Proof. exact (outcome n). Qed.
Print Assumptions C68_defined.

(** An element says one log only. *)
Theorem C68_unique n g g' : read_xml n = Ok g -> file_says n g' -> log_eq g' g.
Proof. exact (unique n g g'). Qed.
Print Assumptions C68_unique.

(** Exceptions come from load_xml alone, for three reasons. *)
Theorem C68_throws fs p :
  (fs (c_str p) = None /\ read_log fs p = Err (ETec ("case file " ++ p ++ " not found"))) \/
  (exists b e, fs (c_str p) = Some b /\ load_text (string_of_list_ascii b) = inr e /\
     read_log fs p = Err (ETec ("error when loading file " ++ p ++ ": error ID " ++ fmt_i e))) \/
  (exists b ks, fs (c_str p) = Some b /\ load_text (string_of_list_ascii b) = inl ks /\
     (forall n, ~ first_kid (NElem "" [] ks) "File" n) /\
     read_log fs p = Err (ETec ("node " ++ Q ++ "File" ++ Q ++ " not found in " ++ p))) \/
  (exists b ks n, fs (c_str p) = Some b /\ load_text (string_of_list_ascii b) = inl ks /\
     first_kid (NElem "" [] ks) "File" n /\ read_log fs p = read_xml n /\ forall e, read_log fs p <> Err e).
Proof.
  unfold read_log, load_xml. destruct (fs (c_str p)) as [b|]; [right|left; auto].
  destruct (load_text (string_of_list_ascii b)) as [ks|e] eqn:E; [right|left; exists b, e; auto].
  change (c_str "File") with "File"%string. destruct (child (NElem "" [] ks) "File") as [n|] eqn:C; [right|left].
  - exists b, ks, n. split; [reflexivity|]. split; [exact E|]. split; [apply child_first, C|]. cbn [rbind]. split; [reflexivity|].
    intros e. destruct (outcome n) as [(g & -> & _)|[-> _]]; discriminate.
  - exists b, ks. split; [reflexivity|]. split; [exact E|]. split; [|reflexivity]. intros n H. apply child_first in H. congruence.
Qed.
Print Assumptions C68_throws.

(** A log read from any document and written again says the same, provided its texts are such that XML leaves
    them alone. *)
Theorem C68_again n g depth : read_xml n = Ok g -> xml_safe (described g) -> plain_text (fl_begin g) ->
  (forall v, num64 (fl_using g) = Fin v -> Z.abs v < 2 ^ 64 * 2 ^ 1074) ->
  Forall (fun z => Forall (fun d => dl_size d <= INT_MAX) (zl_data z)) (fl_zones g) ->
  exists t g', xml_file g depth = Ok t /\ same_log g g' /\
    forall fs p, fs (c_str p) = Some (list_ascii_of_string t) -> read_log fs p = Ok g'.
Proof. exact (again n g depth). Qed.
Print Assumptions C68_again.

(** ** A document *)

Definition dx_doc (title zones : string) : bytes :=
  list_ascii_of_string
   ("<Logs/><File x='1' FileName='a'><Zones>" ++ zones ++ "</Zones><Title>" ++ title ++ "</Title><Time>noon</Time><FilePath>.</FilePath><UsingTime/><FileType>none</FileType>" ++
    "<Variables/><Auxiliary><b>2</b><a>1</a><b>3</b></Auxiliary></File>").
Definition dx_zone (triple : string) : string :=
  "<Z><ZoneName>z</ZoneName><StrandId>-1</StrandId><Org_Dim>1</Org_Dim><Real_Dim>1</Real_Dim><Org_Max>" ++ triple ++ "</Org_Max>" ++
  "<Skip><i>1</i><i>1</i><i>1</i></Skip><Begin><i>0</i><i>0</i><i>0</i></Begin><End><i>0</i><i>0</i><i>0</i></End>" ++
  "<Real_Max><i>3</i><i>1</i><i>1</i></Real_Max><Datas/></Z>".

Definition dx_read (b : bytes) : res file_log := read_log (fun _ => Some b) "a.xml".
Definition dx_view (g : file_log) : tfile * string * Z * list (list data_log) := (described g, fl_begin g, fl_using g, map zl_data (fl_zones g)).
Definition dx_good : bytes := dx_doc "t" (dx_zone "<i>3</i><i>1</i><i>1</i>").
Definition dx_says : tfile :=
  mkFile "." "a" "t" [] (-1) [("a", "1"); ("b", "3")]%string [mkZone "z" (-1) 0 (mk3 3 1 1) (mk3 1 1 1) (mk3 0 0 0) (mk3 0 0 0) [] [] 0] 0.
Lemma dx_found : match dx_read dx_good with Ok g => Some (dx_view g) | _ => None end = Some (dx_says, "noon"%string, 0, [[]]).
Proof. vm_compute. reflexivity. Qed.

Ltac char_list := let c := fresh in let H := fresh in intros c H; cbn [list_ascii_of_string In] in H; repeat (destruct H as [<-|H]; [vm_compute; intuition congruence|]); destruct H.
Ltac not_blank := let C := fresh in intros C; let X := fresh in pose proof (C _ (or_introl eq_refl)) as X; vm_compute in X; intuition congruence.

(** The order of the elements does not matter, a missing type is -1, a missing time 0, the last of two pairs
    with the same name counts; and the log written again reads as the same. *)
Example C68_ex : exists g t g', dx_read dx_good = Ok g /\ described g = dx_says /\ fl_begin g = "noon"%string /\ fl_using g = 0 /\
  xml_file g 0 = Ok t /\ same_log g g' /\ dx_read (list_ascii_of_string t) = Ok g'.
Proof.
  pose proof dx_found as F. destruct (dx_read dx_good) as [g|e|] eqn:R; try discriminate F. assert (FV : dx_view g = (dx_says, "noon"%string, 0, [[]])) by congruence. clear F.
  pose proof (f_equal (fun v => fst (fst (fst v))) FV) as F1. pose proof (f_equal (fun v => snd (fst (fst v))) FV) as F2.
  pose proof (f_equal (fun v => snd (fst v)) FV) as F3. pose proof (f_equal snd FV) as F4. unfold dx_view in F1, F2, F3, F4. cbn [fst snd] in F1, F2, F3, F4. clear FV.
  destruct (C68_throws (fun _ => Some dx_good) "a.xml") as [[E _]|[(b & e & _ & _ & E)|[(b & ks & _ & _ & _ & E)|(b & ks & n & _ & _ & _ & E & _)]]]; try discriminate E;
    unfold dx_read in R; rewrite R in E; try discriminate E. symmetry in E.
  destruct (C68_again n g 0 E) as (t & g' & X1 & X2 & X3).
  - rewrite F1. split.
    + split; [char_list|]. split; [char_list|]. split; [char_list|]. split; [constructor|]. split.
      * split; [apply in_order_cons; [|repeat constructor]; apply Forall_cons; [|constructor]; apply L_Aux.str_lt_before; reflexivity|].
        repeat (apply Forall_cons; [split; [|char_list]; match goal with |- xml_name (fst (String ?c _, _)) => exists c, ""%string end; split; [reflexivity|]; split; [vm_compute; intuition congruence|char_list]|]). constructor.
      * apply Forall_cons; [|constructor]. split; [char_list|]. split; constructor.
    + unfold contents. cbn. repeat (apply Forall_cons; [not_blank|]). constructor.
  - rewrite F2. split; [char_list|not_blank].
  - rewrite F3. intros v H. vm_compute in H. injection H as <-. vm_compute. reflexivity.
  - destruct (fl_zones g) as [|z [|z2 zs]]; try discriminate F4. injection F4 as F4. apply Forall_cons; [rewrite F4; constructor|constructor].
  - exists g, t, g'. repeat (split; [first [reflexivity|assumption]|]). apply X3. reflexivity.
Qed.

(** Two or four entries instead of three, or a title that is a comment: undefined; no element File: an exception. *)
Example C68_ub : dx_read (dx_doc "t" (dx_zone "<i>3</i><i>1</i>")) = UB /\ dx_read (dx_doc "t" (dx_zone "<i>3</i><i>1</i><i>1</i><i>1</i>")) = UB /\
  dx_read (dx_doc "<!-- t -->" "") = UB /\
  dx_read (list_ascii_of_string "<Log/>") = Err (ETec ("node " ++ Q ++ "File" ++ Q ++ " not found in a.xml")).
Proof. vm_compute. auto. Qed.

(** A title may be given with a character reference.  The log can be read, but what write_xml then
    writes is not XML: the condition of C68_again on the texts is needed. *)
Definition dx_less : bytes := dx_doc "a &lt; b" "".
Lemma dx_less_found : match dx_read dx_less with
  | Ok g => match xml_file g 0 with Ok t => match dx_read (list_ascii_of_string t) with Err _ => String.eqb (f_title (fl_file g)) "a < b" | _ => false end | _ => false end
  | _ => false end = true.
Proof. vm_compute. reflexivity. Qed.
Theorem C68_again_refuted : exists b g t x, dx_read b = Ok g /\ f_title (fl_file g) = "a < b"%string /\ xml_file g 0 = Ok t /\
  dx_read (list_ascii_of_string t) = Err x.
Proof.
  pose proof dx_less_found as F. destruct (dx_read dx_less) as [g|e|] eqn:E1; try discriminate F.
  destruct (xml_file g 0) as [t|e|] eqn:E2; try discriminate F. destruct (dx_read (list_ascii_of_string t)) as [g'|e|] eqn:E3; try discriminate F.
  exists dx_less, g, t, e. split; [exact E1|]. split; [apply String.eqb_eq, F|]. split; assumption.
Qed.
Print Assumptions C68_again_refuted.
