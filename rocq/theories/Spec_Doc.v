(** What a log in an XML document says, for any document. *)

From Coq Require Import ZArith Ascii String List Bool.
From Verif Require Import Base M_Bytes M_TecZone M_TecFile M_Scan M_Xml Spec_Plt Spec_Aux Spec_Xml.
Import ListNotations.
Open Scope string_scope.
Open Scope list_scope.
Open Scope Z_scope.

(** ** Elements *)

(** [c] is the first element with this name among the children of [n]. *)
Definition first_kid (n : node) (name : string) (c : node) : Prop :=
  exists l1 l2, elems n = l1 ++ c :: l2 /\ name_of c = name /\ Forall (fun d => name_of d <> name) l1.
(** The first thing in [c] is the text [t]. *)
Definition holds_text (c : node) (t : string) : Prop := exists b l, kids c = NText b t :: l.
Definition text_at (n : node) (name t : string) : Prop := exists c, first_kid n name c /\ holds_text c t.
(** [t] is the first attribute with this name. *)
Definition has_attr (n : node) (name t : string) : Prop :=
  exists l1 l2, attrs n = l1 ++ (name, t) :: l2 /\ Forall (fun p => fst p <> name) l1.

(** ** Numbers *)

(** The text starts with the decimal number [z] ([decimal], M_Scan.v), which fits an [int]. *)
Definition int_text (t : string) (z : Z) : Prop := decimal t = Some z /\ in_int z.
Definition int_at (n : node) (name : string) (z : Z) : Prop := exists t, text_at n name t /\ int_text t z.
Definition double_at (n : node) (name : string) (x : Z) : Prop := exists t, text_at n name t /\ scan_double t = Some x.
(** Three elements with a number each. *)
Definition triple_at (n : node) (name : string) (v : v3) : Prop :=
  exists e a b c ta tb tc, first_kid n name e /\ elems e = [a; b; c] /\
    holds_text a ta /\ int_text ta (x0 v) /\ holds_text b tb /\ int_text tb (x1 v) /\ holds_text c tc /\ int_text tc (x2 v).

(** ** Logs *)

(** Auxiliary data: every element has a text; of two with the same name the later one counts. *)
Definition pairs_say (l : list node) (a : aux) : Prop :=
  in_order a /\ (forall c, In c l -> exists t, holds_text c t) /\
  forall k t, In (k, t) a <-> exists l1 c l2, l = l1 ++ c :: l2 /\ name_of c = k /\ holds_text c t /\ Forall (fun d => name_of d <> k) l2.
Definition aux_say (n : node) (a : aux) : Prop :=
  (exists c, first_kid n "Auxiliary" c /\ pairs_say (elems c) a) \/ ((forall c, ~ first_kid n "Auxiliary" c) /\ a = []).

Definition data_says (c : node) (d : data_log) : Prop :=
  (exists t, has_attr c "type" t /\ int_text t (dl_type d)) /\
  (exists t v, has_attr c "size_i" t /\ decimal t = Some v /\ Z.abs v < 2 ^ 32 /\ dl_size d = v mod 2 ^ 32) /\
  (exists t, has_attr c "file_pt" t /\ dl_pt d = strtol t) /\
  (exists t, has_attr c "min" t /\ scan_double t = Some (dl_min d)) /\
  (exists t, has_attr c "max" t /\ scan_double t = Some (dl_max d)).

Definition zone_says (n : node) (g : zone_log) : Prop :=
  let z := zl_zone g in let r := zl_real g in
  text_at n "ZoneName" (z_name z) /\ int_at n "StrandId" (z_strand z) /\ (z_strand z <> -1 -> double_at n "SolutionTime" (z_time z)) /\
  int_at n "Org_Dim" (r_dim r) /\ int_at n "Real_Dim" (r_rdim r) /\
  triple_at n "Org_Max" (z_max z) /\ triple_at n "Skip" (z_skip z) /\ triple_at n "Begin" (z_begin z) /\ triple_at n "End" (z_end z) /\
  triple_at n "Real_Max" (r_max r) /\ aux_say n (z_aux z) /\
  exists c, first_kid n "Datas" c /\ Forall2 data_says (elems c) (zl_data g).

(** The time used may be missing in its element, and so may the type of the file. *)
Definition using_says (n : node) (x : Z) : Prop :=
  exists c, first_kid n "UsingTime" c /\
    ((exists t, holds_text c t /\ scan_double t = Some x) \/ ((forall t, holds_text c t -> scan_double t = None) /\ x = 0)).
Definition type_says (n : node) (k : Z) : Prop :=
  exists c, first_kid n "FileType" c /\
    ((exists t, holds_text c t /\ int_text t k) \/ ((forall t, holds_text c t -> decimal t = None) /\ k = -1)).
Definition file_says (n : node) (g : file_log) : Prop :=
  let f := fl_file g in
  has_attr n "FileName" (f_name f) /\ text_at n "FilePath" (f_path f) /\ text_at n "Time" (fl_begin g) /\ using_says n (fl_using g) /\
  text_at n "Title" (f_title f) /\ type_says n (f_type f) /\
  (exists c, first_kid n "Variables" c /\ f_vars f = map name_of (elems c)) /\ aux_say n (f_aux f) /\
  exists c, first_kid n "Zones" c /\ Forall2 zone_says (elems c) (fl_zones g).

(** The texts fit the buffers of gen_json and gen_xml (compare [short], Spec_Plt.v). *)
Definition log_short (g : file_log) : Prop :=
  let f := fl_file g in
  len (f_name f ++ ".plt") + 22 < 200 /\ len (f_path f) + 22 < 200 /\ len (f_title f) + 16 < 200 /\ len (fl_begin g) + 14 < 200 /\
  Z.of_nat (String.length (fmt_lf 5 (fl_using g))) + 24 < 200 /\
  (forall k v, nth_error (f_vars f) k = Some v -> len v + digits (sz2i (Z.of_nat k)) + 9 < 200) /\
  Forall short_pair (f_aux f) /\
  Forall (fun z => len (z_name (zl_zone z)) + 22 < 200 /\ Forall short_pair (z_aux (zl_zone z))) (fl_zones g).

(** ** Logs with the same values *)

Definition zone_eq (g g' : zone_log) : Prop :=
  let z := zl_zone g in let z' := zl_zone g' in let r := zl_real g in let r' := zl_real g' in
  z_name z' = z_name z /\ z_strand z' = z_strand z /\ (z_strand z <> -1 -> z_time z' = z_time z) /\
  z_max z' = z_max z /\ z_skip z' = z_skip z /\ z_begin z' = z_begin z /\ z_end z' = z_end z /\ z_aux z' = z_aux z /\
  r_dim r' = r_dim r /\ r_rdim r' = r_rdim r /\ r_max r' = r_max r /\ zl_data g' = zl_data g.
Definition log_eq (g g' : file_log) : Prop :=
  let f := fl_file g in let f' := fl_file g' in
  f_path f' = f_path f /\ f_name f' = f_name f /\ f_title f' = f_title f /\ f_vars f' = f_vars f /\ f_type f' = f_type f /\ f_aux f' = f_aux f /\
  fl_begin g' = fl_begin g /\ fl_using g' = fl_using g /\ Forall2 zone_eq (fl_zones g) (fl_zones g').

(** The description of the whole file a log belongs to, with its zones. *)
Definition described (g : file_log) : tfile :=
  let f := fl_file g in
  mkFile (f_path f) (f_name f) (f_title f) (f_vars f) (f_type f) (f_aux f) (map zl_zone (fl_zones g)) (f_echo f).
