(** Property C57: the log kept as JSON.

    Reading guide (see also P_TecFile.v and P_Xml.v).  [write_json g depth] is the content of the file written by
    last_log.write_json(depth).  [parse_json] (Spec_Json.v) is a reader of JSON written after RFC 8259;
    [says_file g j] lists the members the document [j] must have, in their order, to say what the log [g] says: texts and whole
    numbers exactly, other numbers with a relative error of at most half a millionth, seconds to five decimals.
    [json_plain f]: the texts of the description have no quote, backslash or control character.
    [finite_log g]: the numbers to be printed (extrema, solution times of zones with a strand, time used) are finite. *)

From Coq Require Import ZArith Ascii String List Bool Lia.
From Verif Require Import Base M_Flags M_Bytes M_TecZone M_TecFile Spec_Tec Spec_Plt Spec_Aux Spec_Xml P_TecFile P_Xml Spec_Json L_JsonLog.
Import ListNotations.
Open Scope list_scope.
Open Scope Z_scope.

(** ** C57: what a JSON reader finds *)

Theorem C57_json e f s g u depth :
  file_wf f -> plt_size f < 2 ^ 63 -> write_plt e f = Ret (s, g) u -> json_plain f -> json_text (e_begin e) -> finite_log g ->
  exists t j, write_json g depth = Ok t /\ parse_json t = Some j /\ says_file g j.
Proof.
  intros Hw Hs E Hp Hb Hf. destruct (written_json e f s g u depth Hw Hs E Hp Hb) as (t & Et & H).
  destruct (parse_json t) as [j|] eqn:Ej; [|destruct (H Hf)]. exists t, j. split; [exact Et|]. split; [exact Ej|apply H].
Qed.
Print Assumptions C57_json.

(** Finite data have finite extrema. *)
Theorem C57_finite e f s g u :
  file_wf f -> plt_size f < 2 ^ 63 -> write_plt e f = Ret (s, g) u -> finite_file f -> finite (e_using e) -> finite_log g.
Proof. exact (given_finite e f s g u). Qed.
Print Assumptions C57_finite.

(** One number that is not finite is enough to make the text unreadable. *)
Theorem C57_not_json e f s g u depth :
  file_wf f -> plt_size f < 2 ^ 63 -> write_plt e f = Ret (s, g) u -> json_plain f -> json_text (e_begin e) -> ~ finite_log g ->
  exists t, write_json g depth = Ok t /\ parse_json t = None.
Proof.
  intros Hw Hs E Hp Hb Hf. destruct (written_json e f s g u depth Hw Hs E Hp Hb) as (t & Et & H).
  exists t. split; [exact Et|]. destruct (parse_json t) as [j|]; [destruct Hf; apply H|reflexivity].
Qed.
Print Assumptions C57_not_json.

(** ** Examples *)

Ltac jtext := intros ? H; cbn [list_ascii_of_string In] in H; repeat (destruct H as [<-|H]; [vm_compute; intuition congruence|]); destruct H.
Example json_plain_ex : json_plain file_ex.
Proof.
  unfold json_plain. cbn [file_ex f_name f_path f_title f_vars f_aux f_zones zone1 zone2].
  split; [jtext|]. split; [jtext|]. split; [jtext|]. split; [repeat (apply Forall_cons; [jtext|]); apply Forall_nil|].
  split; [apply Forall_cons; [split; jtext|apply Forall_nil]|].
  apply Forall_cons; [|apply Forall_cons; [|apply Forall_nil]].
  - split; [jtext|]. apply Forall_cons; [split; jtext|]. apply Forall_cons; [split; jtext|apply Forall_nil].
  - split; [jtext|apply Forall_nil].
Qed.
Definition is_fin (x : num) : bool := match x with Fin _ => true | _ => false end.
Lemma is_fin_true x : is_fin x = true -> exists v, x = Fin v.
Proof. destruct x; intros H; try discriminate H. eexists; reflexivity. Qed.
Definition fin_log (g : file_log) : bool :=
  is_fin (num64 (fl_using g)) &&
  forallb (fun z => ((z_strand (zl_zone z) =? -1) || is_fin (num64 (z_time (zl_zone z)))) &&
                    forallb (fun d => is_fin (num64 (dl_min d)) && is_fin (num64 (dl_max d))) (zl_data z)) (fl_zones g).
Lemma fin_log_true g : fin_log g = true -> finite_log g.
Proof.
  unfold fin_log. intros H. apply andb_prop in H. destruct H as [H1 H]. split; [apply is_fin_true, H1|].
  apply Forall_forall. rewrite forallb_forall in H. intros z Hz. apply H, andb_prop in Hz. destruct Hz as [Ht Hd]. split.
  - intros C. apply is_fin_true. apply orb_prop in Ht. destruct Ht as [Ht|Ht]; [apply Z.eqb_eq in Ht; congruence|exact Ht].
  - apply Forall_forall. rewrite forallb_forall in Hd. intros d Hin. apply Hd, andb_prop in Hin. split; apply is_fin_true; apply Hin.
Qed.
Example C57_ex : file_wf file_ex /\ plt_size file_ex < 2 ^ 63 /\ json_plain file_ex /\ json_text (e_begin env_ex) /\
  exists s g, write_plt env_ex file_ex = Ret (s, g) tt /\ finite_log g.
Proof.
  split; [apply file_ex_wf|]. split; [vm_compute; reflexivity|]. split; [apply json_plain_ex|]. split; [jtext|].
  assert (H : match write_plt env_ex file_ex with Ret (_, g) _ => fin_log g | _ => false end = true) by (vm_compute; reflexivity).
  destruct (write_plt env_ex file_ex) as [[s g] []| |]; try discriminate H. exists s, g. split; [reflexivity|apply fin_log_true, H].
Qed.
Example C57_finite_ex : finite_file file_ex /\ finite (e_using env_ex).
Proof.
  split; [|apply is_fin_true; reflexivity]. unfold finite_file. cbn [file_ex f_zones].
  assert (H : forall z d mem n, d_mem d = Some mem -> product (samples_of z) = Z.of_nat n ->
    forallb (fun k => is_fin (value (d_type d) (block_of z (width (d_type d)) mem) (Z.of_nat k))) (seq 0 n) = true -> finite_values z d).
  { intros z d mem n Em En H mem' i Em' Hi. rewrite Em in Em'. injection Em' as <-. rewrite En in Hi. apply is_fin_true.
    rewrite forallb_forall in H. rewrite <- (Z2Nat.id i) by lia. apply H, in_seq. lia. }
  apply Forall_cons; [|apply Forall_cons; [|apply Forall_nil]].
  - split; [intros _; apply is_fin_true; reflexivity|]. cbn [zone1 z_data].
    apply Forall_cons; [|apply Forall_cons; [|apply Forall_nil]].
    + apply (H _ _ shorts 4%nat); vm_compute; reflexivity.
    + apply (H _ _ signed_chars 4%nat); vm_compute; reflexivity.
  - split; [intros C; destruct C; reflexivity|]. cbn [zone2 z_data].
    apply Forall_cons; [|apply Forall_cons; [|apply Forall_nil]].
    + apply (H _ _ floats 2%nat); vm_compute; reflexivity.
    + apply (H _ _ doubles 2%nat); vm_compute; reflexivity.
Qed.

(** A solution time that is not a number. *)
Definition a_nan : Z := 9221120237041090560.
Example C57_not_json_ex : let f := xml_file_ex "my title" "u" a_nan in
  file_wf f /\ plt_size f < 2 ^ 63 /\ json_plain f /\ json_text (e_begin env_ex) /\
  exists s g, write_plt env_ex f = Ret (s, g) tt /\ ~ finite_log g.
Proof.
  cbv zeta. assert (R : 0 <= a_nan < 2 ^ 64) by (split; [discriminate|reflexivity]).
  pose proof (xml_file_wf "my title" "u" a_nan R) as W. split; [exact W|].
  assert (P : plt_size (xml_file_ex "my title" "u" a_nan) < 2 ^ 63) by (vm_compute; reflexivity). split; [exact P|].
  split; [|split; [jtext|]].
  - unfold json_plain. cbn [xml_file_ex f_name f_path f_title f_vars f_aux f_zones xml_zone_ex].
    split; [jtext|]. split; [jtext|]. split; [jtext|]. split; [apply Forall_cons; [jtext|apply Forall_nil]|].
    split; [apply Forall_cons; [split; jtext|apply Forall_nil]|].
    apply Forall_cons; [|apply Forall_nil]. split; [jtext|]. apply Forall_cons; [split; jtext|]. apply Forall_cons; [split; jtext|apply Forall_nil].
  - destruct (xml_written "my title" "u" a_nan R) as (s & g & E); [apply xml_short; vm_compute; reflexivity|exact P|].
    exists s, g. split; [exact E|]. destruct (C35_log _ _ _ _ _ W P E) as (_ & _ & _ & _ & _ & _ & Z & _).
    intros (_ & F). destruct (fl_zones g) as [|z zs]; [discriminate Z|]. apply Forall_inv in F. destruct F as (F & _).
    cbn [map xml_file_ex f_zones] in Z. injection Z as Z _. rewrite Z in F. destruct F as (v & F); [discriminate|]. vm_compute in F. discriminate F.
Qed.

(** ** Texts that are not left alone *)

Definition json_file_ex (path title : string) : tfile := mkFile path "out" title ["u"]%string 0 [] [xml_zone_ex 0] 0.
Lemma json_file_wf path title : file_wf (json_file_ex path title).
Proof. pose proof (xml_file_wf title "u" 0 ltac:(lia)) as (H1 & H2 & H3 & H4). split; [exact H1|]. split; [exact H2|]. split; [exact H3|exact H4]. Qed.
Definition json_of (f : tfile) (test : option json -> bool) : bool :=
  match write_plt env_ex f with
  | Ret (_, g) _ => fin_log g && match write_json g 0 with Ok t => test (parse_json t) | _ => false end
  | _ => false
  end.
Lemma json_of_true f test : json_of f test = true ->
  exists s g t, write_plt env_ex f = Ret (s, g) tt /\ finite_log g /\ write_json g 0 = Ok t /\ test (parse_json t) = true.
Proof.
  unfold json_of. destruct (write_plt env_ex f) as [[s g] []| |]; intros H; try discriminate H. apply andb_prop in H. destruct H as [H1 H].
  destruct (write_json g 0) as [t| |] eqn:E; try discriminate H. exists s, g, t. split; [reflexivity|]. split; [apply fin_log_true, H1|]. auto.
Qed.
Definition is_none {A} (o : option A) : bool := match o with None => true | Some _ => false end.
Definition member (name : string) (o : option json) : option json :=
  match o with
  | Some (JObj l) => match find (fun p => String.eqb (fst p) name) l with Some p => Some (snd p) | None => None end
  | _ => None
  end.
Definition says_text (name text : string) (o : option json) : bool :=
  match member name o with Some (JStr s) => String.eqb s text | _ => false end.

(** Quotes in a title. *)
Theorem C57_quote_refuted :
  exists e f s g t, file_wf f /\ plt_size f < 2 ^ 63 /\ write_plt e f = Ret (s, g) tt /\ finite_log g /\
    f_title f = "the ""new"" case"%string /\ write_json g 0 = Ok t /\ parse_json t = None.
Proof.
  destruct (json_of_true (json_file_ex "." "the ""new"" case") is_none ltac:(vm_compute; reflexivity)) as (s & g & t & E1 & E2 & E3 & E4).
  exists env_ex, (json_file_ex "." "the ""new"" case"), s, g, t. split; [apply json_file_wf|]. split; [vm_compute; reflexivity|].
  do 4 (split; [assumption || reflexivity|]). destruct (parse_json t); [discriminate E4|reflexivity].
Qed.
Print Assumptions C57_quote_refuted.

(** A directory as written under Windows: not readable, or read as something else. *)
Theorem C57_backslash_refuted :
  (exists e f s g t, file_wf f /\ plt_size f < 2 ^ 63 /\ write_plt e f = Ret (s, g) tt /\ finite_log g /\
    f_path f = "..\data"%string /\ write_json g 0 = Ok t /\ parse_json t = None) /\
  (exists e f s g t l, file_wf f /\ plt_size f < 2 ^ 63 /\ write_plt e f = Ret (s, g) tt /\ finite_log g /\
    f_path f = "..\new"%string /\ write_json g 0 = Ok t /\ parse_json t = Some (JObj l) /\
    In ("FilePath"%string, JStr (".." ++ String (ascii_of_nat 10) "ew")%string) l /\ ~ In ("FilePath"%string, JStr (f_path f)) l).
Proof.
  split.
  - destruct (json_of_true (json_file_ex "..\data" "t") is_none ltac:(vm_compute; reflexivity)) as (s & g & t & E1 & E2 & E3 & E4).
    exists env_ex, (json_file_ex "..\data" "t"), s, g, t. split; [apply json_file_wf|]. split; [vm_compute; reflexivity|].
    do 4 (split; [assumption || reflexivity|]). destruct (parse_json t); [discriminate E4|reflexivity].
  - pose (path := ("..\new")%string). pose (read := (".." ++ String (ascii_of_nat 10) "ew")%string).
    pose (test := fun o => says_text "FilePath" read o &&
      match o with Some (JObj l) => forallb (fun p => match snd p with JStr x => negb (String.eqb x path) | _ => true end) l | _ => false end).
    destruct (json_of_true (json_file_ex path "t") test ltac:(vm_compute; reflexivity)) as (s & g & t & E1 & E2 & E3 & E4).
    exists env_ex, (json_file_ex path "t"), s, g, t. apply andb_prop in E4. destruct E4 as [E4 E5].
    destruct (parse_json t) as [j|] eqn:Ej; [|discriminate E5]. destruct j as [| | | | |l]; try discriminate E5. exists l.
    split; [apply json_file_wf|]. split; [vm_compute; reflexivity|]. do 5 (split; [assumption || reflexivity|]). split.
    + unfold says_text, member in E4. destruct (find _ l) as [[k v]|] eqn:F; [|discriminate E4]. apply find_some in F. destruct F as [F K].
      cbn [fst snd] in *. apply String.eqb_eq in K. subst k. destruct v as [| | |x| |]; try discriminate E4. apply String.eqb_eq in E4. subst x. exact F.
    + intros C. rewrite forallb_forall in E5. apply E5 in C. cbn [snd json_file_ex f_path] in C. rewrite String.eqb_refl in C. discriminate C.
Qed.
Print Assumptions C57_backslash_refuted.
