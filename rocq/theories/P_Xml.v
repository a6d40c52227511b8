(** Properties C43 to C46: logs kept as XML.

    Reading guide (see also P_TecFile.v and P_Read.v).  [xml_file g depth] is the content of the file
    written by last_log.write_xml(depth); [read_log fs p] is log.read_xml(load_xml(doc, p, "File")) where [fs]
    are the readable files by path.  [xml_plain f] (Spec_Xml.v) says that the texts of the description
    are left alone by XML: names of variables and of auxiliary data are names of elements, title, path, zone
    names and auxiliary values have no NUL, carriage return, [&] or [<] (zone and file names no double quote).
    [xml_safe f]: besides, title, path, zone names and auxiliary values ([contents f]) are neither empty nor blank.
    [same_log g g'] compares all that an XML log keeps; [near] is a relative error of at most 10^-6.
    [calm e]: the text of the time of day fits its buffer, the time used is below 2^64 seconds. *)

From Coq Require Import ZArith Ascii String List Bool Lia.
From Verif Require Import Base M_Flags M_Bytes M_TecZone M_TecFile Spec_Tec Spec_Plt Spec_Aux Spec_Xml P_TecFile
  M_Loop M_RS1 M_RS2 M_RS3 M_Heap M_PD1 M_PD2 M_PD3 M_World M_Read
  Spec Spec_Loop Spec_Array Spec_Hist Spec_Reach Spec_Read L_Plt L_ReadLog L_ReadCall L_Read L_Round P_Access P_Read
  L_Aux M_ReadXml L_XmlLog L_XmlCut L_XmlRead.
Import ListNotations.
Open Scope list_scope.
Open Scope Z_scope.

(** ** C43: the log comes back *)

Theorem C43_log_round_trip e f s g u depth :
  file_wf f -> plt_size f < 2 ^ 63 -> write_plt e f = Ret (s, g) u -> calm e -> xml_safe f -> plain_text (e_begin e) ->
  exists t g', xml_file g depth = Ok t /\ same_log g g' /\
    forall fs p, fs (c_str p) = Some (list_ascii_of_string t) -> read_log fs p = Ok g'.
Proof. exact (log_round_trip e f s g u depth). Qed.
Print Assumptions C43_log_round_trip.

(** ** C44: data can be read with the log that came back *)

(** Logs that say the same are the same to read_plt. *)
Theorem C44_same_reads {V} chk (of_float of_double : bytes -> option V) g g' k fs root zone name nn o st :
  same_log g g' ->
  m_read_plt chk of_float of_double k fs root g' zone name nn o st = m_read_plt chk of_float of_double k fs root g zone name nn o st.
Proof. exact (same_log_reads chk of_float of_double g g' k fs root zone name nn o st). Qed.
Print Assumptions C44_same_reads.

(** C36 with the .plt file and the XML file on disk and nothing else. *)
Theorem C44_from_disk {V1 V2} chk (of_float of_double : bytes -> option V2)
    F1 h1 (w1 : world V1) aw1 a1 k1 o1 n1 F2 h2 (w2 : world V2) aw2 a2 k2 o2 n2
    wd dec (enc : V1 -> bytes) (cast : V1 -> V2) mem t d e f s g u zi z name vv fs root live depth xml log :
  after F1 h1 w1 aw1 -> healthy aw1 a1 -> find w1 a1 = Some (k1, o1) -> o_data o1 <> Null -> 0 <= n1 < k_N k1 ->
  after F2 h2 w2 aw2 -> healthy aw2 a2 -> find w2 a2 = Some (k2, o2) -> 0 <= n2 < k_N k2 ->
  length (k_locs k2) = length (k_locs k1) ->
  Forall2 size_in (m_size o2) (inner (k_locs k1) (m_size o1)) ->
  (t = CFloat /\ wd = 4 /\ dec = of_float \/ t = CDouble /\ wd = 8 /\ dec = of_double) ->
  (forall bs, Z.of_nat (length bs) = wd -> dec bs <> None) -> (forall v, dec (enc v) = Some (cast v)) ->
  image w1 k1 o1 n1 wd enc mem -> M_TecZone.data_of t (Some mem) = Ok d ->
  file_wf f -> plt_size f < 2 ^ 63 -> 0 <= zi -> nth_error (f_zones f) (Z.to_nat zi) = Some z ->
  takes_interior (k_locs k1) (m_size o1) z ->
  first_at (f_vars f) name vv -> nth_error (z_data z) vv = Some d ->
  write_plt e f = Ret (s, g) u -> F2 (tick (heap w2)) = false ->
  calm e -> xml_safe f -> plain_text (e_begin e) ->
  fs (plt_path root g) = disk s -> xml_file g depth = Ok xml -> fs (c_str log) = Some (list_ascii_of_string xml) ->
  exists g' w2' val, read_log fs log = Ok g' /\
    m_read_plt chk of_float of_double k2 fs root g' zi name n2 o2 (heap w2, live) = Ret (heap w2', live) tt /\
    overwritten aw2 w2 w2' k2 a2 o2 n2 (inner (k_locs k1) (m_size o1)) val /\
    forall q v, in_box (corner (inner (k_locs k1) (m_size o1))) q -> reads w1 k1 o1 n1 q (Some v) -> val q = Some (cast v).
Proof.
  exact (disk_round_trip chk of_float of_double F1 h1 w1 aw1 a1 k1 o1 n1 F2 h2 w2 aw2 a2 k2 o2 n2
    wd dec enc cast mem t d e f s g u zi z name vv fs root live depth xml log).
Qed.
Print Assumptions C44_from_disk.

(** ** C45: blank texts *)

(** If the time of day, the title, the path, a zone name or an auxiliary value is empty or blank, reading
    the XML file constructs a std::string from a null pointer. *)
Theorem C45_blank_text e f s g u depth :
  file_wf f -> plt_size f < 2 ^ 63 -> write_plt e f = Ret (s, g) u -> xml_plain f -> chars plain (e_begin e) ->
  (exists x, In x (e_begin e :: contents f) /\ chars space x) ->
  exists t, xml_file g depth = Ok t /\ forall fs p, fs (c_str p) = Some (list_ascii_of_string t) -> read_log fs p = UB.
Proof. exact (log_blank e f s g u depth). Qed.
Print Assumptions C45_blank_text.

(** ** C46: a file cut short *)

(** [p] is the beginning of the XML file, [x] what is missing: more than blanks and line ends. *)
Theorem C46_cut_short e f s g u depth t p x :
  file_wf f -> plt_size f < 2 ^ 63 -> write_plt e f = Ret (s, g) u -> xml_plain f -> chars plain (e_begin e) ->
  xml_file g depth = Ok t -> t = (p ++ x)%string -> ~ chars space x ->
  forall fs file, fs (c_str file) = Some (list_ascii_of_string p) -> exists m, read_log fs file = Err (ETec m).
Proof. exact (log_cut e f s g u depth t p x). Qed.
Print Assumptions C46_cut_short.

(** ** Examples *)

Definition xml_zone_ex (time : Z) : zone :=
  mkZone "zone 1" 2 time (mk3 2 1 1) (mk3 1 1 1) (mk3 0 0 0) (mk3 0 0 0) [("alpha", "1.5"); ("note", "two words")]%string
    [mkData TEC_BYTE 1 (Some (map z2b [0; 0]))] 0.
Definition xml_file_ex (title var : string) (time : Z) : tfile :=
  mkFile "." "out" title [var] 0 [("case", "a=b")]%string [xml_zone_ex time] 0.
(** 1/3 *)
Definition third : Z := 4599676419421066581.

Lemma xml_file_wf title var time : 0 <= time < 2 ^ 64 -> file_wf (xml_file_ex title var time).
Proof.
  intros Ht. unfold file_wf. split; [unfold in_int; cbn; lia|]. split; [cbn; lia|]. split; [cbn; lia|].
  apply Forall_cons; [|apply Forall_nil]. unfold zone_wf. split; [unfold all_dirs, dir_ints, in_int; cbn; lia|].
  split; [unfold all_dirs; cbn; lia|]. split; [vm_compute; congruence|]. split; [unfold in_int; cbn; lia|]. split; [exact Ht|].
  apply Forall_cons; [made_by CSChar|apply Forall_nil].
Qed.

Lemma xml_written title var time : 0 <= time < 2 ^ 64 -> short (xml_file_ex title var time) -> plt_size (xml_file_ex title var time) < 2 ^ 63 ->
  exists s g, write_plt env_ex (xml_file_ex title var time) = Ret (s, g) tt.
Proof.
  intros Ht Hs Hp. destruct C41_ex as (_ & _ & _ & Ho & _ & Hc & _).
  apply (C41_limits env_ex (xml_file_ex title var time)); [apply xml_file_wf, Ht|exact Hp| |exact Ho| |exact Hc|exact Hs].
  - unfold refused. intros [H|[H|(z & Hin & H)]]; try discriminate. cbn in Hin. unfold refused_zone, some_dir, dir_bad in H.
    destruct Hin as [<-|[]]. destruct H as [H|[H|[H|(d & Hd & H)]]]; [cbn in H; lia|discriminate|cbn in H; congruence|cbn in Hd; intuition (subst; discriminate)].
  - intros i k (z & _ & _ & _ & H). discriminate.
Qed.
Lemma xml_short title var time : len title + 16 < 200 -> len var + digits 0 + 9 < 200 -> short (xml_file_ex title var time).
Proof.
  intros H1 H2. unfold short. split; [vm_compute; reflexivity|]. split; [vm_compute; reflexivity|]. split; [exact H1|]. split; [|split].
  - intros [|[|k]] v E; try discriminate. injection E as <-. exact H2.
  - repeat constructor.
  - intros [|[|i]] z E; try discriminate. injection E as <-. split; [vm_compute; reflexivity|]. split; [repeat constructor|]. intros _. vm_compute. reflexivity.
Qed.

Ltac char_list := let c := fresh in let H := fresh in intros c H; cbn [list_ascii_of_string In] in H; repeat (destruct H as [<-|H]; [vm_compute; intuition congruence|]); destruct H.
Ltac not_blank := let C := fresh in intros C; let X := fresh in pose proof (C _ (or_introl eq_refl)) as X; vm_compute in X; intuition congruence.
Ltac name_ex c r := exists c, r; split; [reflexivity|]; split; [vm_compute; intuition congruence|char_list].
Ltac all_ex t := repeat (apply Forall_cons; [t|]); apply Forall_nil.

Lemma xml_plain_ex title : chars plain title -> xml_plain (xml_file_ex title "u" third).
Proof.
  intros Ht. unfold xml_plain. cbn [xml_file_ex f_name f_path f_title f_vars f_aux f_zones].
  split; [char_list|]. split; [char_list|]. split; [exact Ht|]. split; [all_ex ltac:(name_ex "u"%char ""%string)|]. split.
  - split; [repeat constructor|]. apply Forall_cons; [|apply Forall_nil]. split; [name_ex "c"%char "ase"%string|char_list].
  - apply Forall_cons; [|apply Forall_nil]. split; [char_list|]. split.
    + apply in_order_cons; [|repeat constructor]. apply Forall_cons; [|apply Forall_nil]. apply L_Aux.str_lt_before. reflexivity.
    + apply Forall_cons; [|apply Forall_cons; [|apply Forall_nil]]; (split; [|char_list]); [name_ex "a"%char "lpha"%string|name_ex "n"%char "ote"%string].
Qed.
Example xml_safe_ex : xml_safe (xml_file_ex "my title" "u" third).
Proof. split; [apply xml_plain_ex; char_list|]. unfold contents. cbn. all_ex not_blank. Qed.
Example begin_ex : plain_text (e_begin env_ex).
Proof. split; [char_list|not_blank]. Qed.

Example C43_ex : let f := xml_file_ex "my title" "u" third in
  file_wf f /\ plt_size f < 2 ^ 63 /\ (exists s g, write_plt env_ex f = Ret (s, g) tt) /\ calm env_ex /\ xml_safe f /\ plain_text (e_begin env_ex).
Proof.
  cbv zeta. split; [apply xml_file_wf; vm_compute; split; congruence|]. split; [vm_compute; reflexivity|].
  split; [apply xml_written; [vm_compute; split; congruence|apply xml_short; vm_compute; reflexivity|vm_compute; reflexivity]|].
  split; [apply C41_ex|]. split; [exact xml_safe_ex|exact begin_ex].
Qed.

(** The pair of arrays of C36_ex and the file written there can be used for C44. *)
Example C44_ex : calm env_ex /\ xml_safe rd_file /\ plain_text (e_begin env_ex) /\
  exists s g, write_plt env_ex rd_file = Ret (s, g) tt /\ plt_path "." g <> c_str "./out.xml".
Proof.
  split; [apply C41_ex|]. split; [|split; [exact begin_ex|]].
  - split.
    + unfold xml_plain. cbn [rd_file f_name f_path f_title f_vars f_aux f_zones].
      split; [char_list|]. split; [char_list|]. split; [char_list|]. split; [all_ex ltac:(name_ex "u"%char ""%string)|].
      split; [repeat constructor|]. apply Forall_cons; [|apply Forall_nil]. split; [char_list|repeat constructor].
    + unfold contents. cbn. all_ex not_blank.
  - destruct rd_out as (s & g & E & P). exists s, g. split; [exact E|]. rewrite P. discriminate.
Qed.

(** An untitled file. *)
Example C45_ex : let f := xml_file_ex "" "u" third in
  file_wf f /\ plt_size f < 2 ^ 63 /\ (exists s g, write_plt env_ex f = Ret (s, g) tt) /\ xml_plain f /\ chars plain (e_begin env_ex) /\
  In ""%string (contents f) /\ chars space "".
Proof.
  cbv zeta. split; [apply xml_file_wf; vm_compute; split; congruence|]. split; [vm_compute; reflexivity|].
  split; [apply xml_written; [vm_compute; split; congruence|apply xml_short; vm_compute; reflexivity|vm_compute; reflexivity]|].
  split; [apply xml_plain_ex; char_list|]. split; [apply begin_ex|]. split; [right; left; reflexivity|intros c []].
Qed.

(** ** Texts and numbers that do not come back *)

Definition again (f : tfile) (test : res file_log -> bool) : bool :=
  match write_plt env_ex f with
  | Ret (_, g) _ =>
      match xml_file g 0 with Ok t => test (read_log (fun _ => Some (list_ascii_of_string t)) "out.xml") | _ => false end
  | _ => false
  end.
Lemma again_true f test : again f test = true ->
  exists s g t r, write_plt env_ex f = Ret (s, g) tt /\ xml_file g 0 = Ok t /\
    read_log (fun _ => Some (list_ascii_of_string t)) "out.xml" = r /\ test r = true.
Proof.
  unfold again. destruct (write_plt env_ex f) as [[s g] []| |]; try discriminate. destruct (xml_file g 0) as [t| |] eqn:E; try discriminate.
  intros H. exists s, g, t. eexists. auto.
Qed.
Definition failed (r : res file_log) : bool := match r with Err _ => true | _ => false end.
Definition titled (title : string) (r : res file_log) : bool := match r with Ok g => String.eqb (f_title (fl_file g)) title | _ => false end.
Definition timed (time : Z) (r : res file_log) : bool := match r with Ok g => forallb (fun z => z_time (zl_zone z) =? time) (fl_zones g) | _ => false end.

(** A variable called [u v] makes the whole file unreadable. *)
Theorem C43_variable_name_refuted :
  exists e f s g t fs p x, file_wf f /\ plt_size f < 2 ^ 63 /\ calm e /\ write_plt e f = Ret (s, g) tt /\ f_vars f = ["u v"]%string /\
    xml_file g 0 = Ok t /\ fs (c_str p) = Some (list_ascii_of_string t) /\ read_log fs p = Err x.
Proof.
  destruct (again_true (xml_file_ex "t" "u v" 0) failed ltac:(vm_compute; reflexivity)) as (s & g & t & r & E1 & E2 & E & E3).
  destruct r as [g'|x|]; try discriminate E3.
  exists env_ex, (xml_file_ex "t" "u v" 0), s, g, t, (fun _ => Some (list_ascii_of_string t)), "out.xml"%string, x.
  split; [apply xml_file_wf; lia|]. split; [vm_compute; reflexivity|]. split; [apply C41_ex|]. repeat (split; [assumption || reflexivity|]). exact E.
Qed.
Print Assumptions C43_variable_name_refuted.

(** Titles with entities come back changed. *)
Theorem C43_entity_refuted :
  exists e f s g t fs p g', file_wf f /\ plt_size f < 2 ^ 63 /\ calm e /\ write_plt e f = Ret (s, g) tt /\ f_title f = "a &lt; b"%string /\
    xml_file g 0 = Ok t /\ fs (c_str p) = Some (list_ascii_of_string t) /\ read_log fs p = Ok g' /\ f_title (fl_file g') = "a < b"%string.
Proof.
  destruct (again_true (xml_file_ex "a &lt; b" "u" 0) (titled "a < b") ltac:(vm_compute; reflexivity)) as (s & g & t & r & E1 & E2 & E & E3).
  destruct r as [g'|x|]; try discriminate E3. cbn [titled] in E3. apply String.eqb_eq in E3.
  exists env_ex, (xml_file_ex "a &lt; b" "u" 0), s, g, t, (fun _ => Some (list_ascii_of_string t)), "out.xml"%string, g'.
  split; [apply xml_file_wf; lia|]. split; [vm_compute; reflexivity|]. split; [apply C41_ex|]. repeat (split; [assumption || reflexivity|]). exact E3.
Qed.
Print Assumptions C43_entity_refuted.

(** Numbers come back near, not equal: the solution time 1/3. *)
Theorem C43_exact_refuted :
  exists e f s g t fs p g', file_wf f /\ plt_size f < 2 ^ 63 /\ calm e /\ xml_safe f /\ plain_text (e_begin e) /\ write_plt e f = Ret (s, g) tt /\
    xml_file g 0 = Ok t /\ fs (c_str p) = Some (list_ascii_of_string t) /\ read_log fs p = Ok g' /\
    map (fun z => z_time (zl_zone z)) (fl_zones g') <> map z_time (f_zones f).
Proof.
  destruct (again_true (xml_file_ex "my title" "u" third) (timed 4599676418820586631) ltac:(vm_compute; reflexivity)) as (s & g & t & r & E1 & E2 & E & E3).
  destruct r as [g'|x|]; try discriminate E3. cbn [timed] in E3.
  exists env_ex, (xml_file_ex "my title" "u" third), s, g, t, (fun _ => Some (list_ascii_of_string t)), "out.xml"%string, g'.
  destruct C43_ex as (H1 & H2 & _ & H4 & H5 & H6). repeat (split; [assumption || reflexivity|]).
  destruct (fl_zones g') as [|z zs]; [discriminate|]. cbn [forallb] in E3. apply andb_prop in E3. destruct E3 as [E3 _]. apply Z.eqb_eq in E3.
  cbn [map xml_file_ex f_zones]. rewrite E3. discriminate.
Qed.
Print Assumptions C43_exact_refuted.

(** Only the first bytes are there. *)
Example C46_ex : exists s g t p x, let f := xml_file_ex "my title" "u" third in
  file_wf f /\ plt_size f < 2 ^ 63 /\ write_plt env_ex f = Ret (s, g) tt /\ xml_plain f /\ chars plain (e_begin env_ex) /\
  xml_file g 0 = Ok t /\ t = (p ++ x)%string /\ ~ chars space x.
Proof.
  assert (EC : forall n t, t = (string_of_list_ascii (firstn n (list_ascii_of_string t)) ++ string_of_list_ascii (skipn n (list_ascii_of_string t)))%string).
  { induction n as [|n IH]; intros t; [rewrite <- (string_of_list_ascii_of_string t) at 1; reflexivity|].
    destruct t as [|c t]; [reflexivity|]. cbn [list_ascii_of_string firstn skipn string_of_list_ascii append]. rewrite <- IH. reflexivity. }
  destruct C43_ex as (H1 & H2 & (s & g & H3) & H4 & H5 & H6).
  destruct (C43_log_round_trip env_ex _ s g tt 0 H1 H2 H3 H4 H5 H6) as (t & g' & E & _ & ER).
  assert (ET : exists y, (xml_line ++ y)%string = t).
  { clear - E. unfold xml_file, rbind in E. destruct (write_xml g 0) as [y| |]; try discriminate E. injection E as E. eexists. exact E. }
  destruct ET as [y ET].
  exists s, g, t, (string_of_list_ascii (firstn 9 (list_ascii_of_string t))), (string_of_list_ascii (skipn 9 (list_ascii_of_string t))).
  cbv zeta. repeat (split; [first [assumption|apply H5|apply H6]|]). split; [apply EC|].
  rewrite <- ET. cbn [xml_line append list_ascii_of_string skipn string_of_list_ascii]. not_blank.
Qed.
