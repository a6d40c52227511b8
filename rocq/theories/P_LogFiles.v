(** Property C59: the files of logs.

    Reading guide (M_LogFiles.v, Spec_LogFiles.v).  [do_call can c (d, l)] makes one call with the files [d] and the logs [l];
    [can] says which files can be opened.  [do_calls] makes a list of calls, each exception being caught.
    [log_call m k depth] is write_echo(), write_json(depth) or write_xml(depth) of log [k], by [m]; [zone_call m k i depth] that of
    zone [i] of the log; [log_file m g] and [zone_file m z] are the files meant.  [reached h d l]: the program [h] led to [d] and
    [l].  [printed] (Spec_Plt.v): the text has the log's own lines and those of its zones at the places reserved for them. *)

From Coq Require Import ZArith Ascii String List Bool Lia.
From Verif Require Import Base M_Bytes M_TecZone M_TecFile Spec_Tec Spec_Plt Spec_Aux Spec_Xml Spec_Log P_TecFile M_ReadXml P_Xml
  M_LogFiles Spec_LogFiles L_LogFiles L_LogSession.
Import ListNotations.
Open Scope list_scope.
Open Scope Z_scope.

(** In every reachable state every log can be written: afterwards the file named after the description has exactly
    the text, and no other file and no log has changed. *)
Theorem C59_written h d l can m k depth : reached h d l -> 0 <= depth <= INT_MAX - 2 -> can (log_file m (l k)) = true ->
  exists d' t n, do_call can (log_call m k depth) (d, l) = Ret (d', l) tt /\
    (n <= length (fl_zones (l k)))%nat /\ printed (indent m depth) (indent2 m depth) (zown m) (fl_zones (l k)) n (own m (l k)) (Ok t) /\
    d' (log_file m (l k)) = Some (bytes_of (head_of m ++ t)) /\ forall q, q <> log_file m (l k) -> d' q = d q.
Proof. exact (log_written h d l can m k depth). Qed.
Print Assumptions C59_written.

(** If the file cannot be opened: an exception that names it, and nothing has changed. *)
Theorem C59_not_opened d l can m k depth : can (log_file m (l k)) = false ->
  do_call can (log_call m k depth) (d, l) = Thr (d, l) (ETec ("can not open file " ++ name_in (fl_file (l k)) (ext m))).
Proof. exact (log_not_opened d l can m k depth). Qed.
Print Assumptions C59_not_opened.

(** The same for zones. *)
Theorem C59_zone_written d l (can : string -> bool) m k i depth z : nth_error (fl_zones (l k)) i = Some z -> 0 <= depth ->
  if can (zone_file m z) then
    exists d', do_call can (zone_call m k i depth) (d, l) = Ret (d', l) tt /\
      d' (zone_file m z) = Some (bytes_of (head_of m ++ lines (indent m depth) (zown m z))) /\ forall q, q <> zone_file m z -> d' q = d q
  else do_call can (zone_call m k i depth) (d, l) = Thr (d, l) (ETec ("can not open file " ++ zname_in z (ext m))).
Proof. exact (zone_written d l can m k i depth z). Qed.
Print Assumptions C59_zone_written.

(** The depth is not checked: with a negative one, or one so big that the zones' does not fit an [int], the
    behaviour is undefined. *)
Theorem C59_depth e f s g u can m k depth d l : file_wf f -> plt_size f < 2 ^ 63 -> write_plt e f = Ret (s, g) u ->
  l k = g -> m <> Txt -> can (log_file m g) = true ->
  depth < 0 \/ (INT_MAX - 2 < depth /\ f_zones f <> []) ->
  do_call can (log_call m k depth) (d, l) = Undef.
Proof. exact (bad_depth e f s g u can m k depth d l). Qed.
Print Assumptions C59_depth.

(** A file changes only by a call that writes it; a log only by a call that assigns it. *)
Theorem C59_frame p k h st st' : do_calls h st = Some st' ->
  (spares p h st -> fst st' p = fst st p) /\ (keeps k h -> snd st' k = snd st k).
Proof. intros E. split; [exact (frame p h st st' E)|exact (frame_log k h st st' E)]. Qed.
Print Assumptions C59_frame.

(** A description that is refused, or a data file that cannot be opened: no file has changed, an older data file of that name
    neither, and the log has the error. *)
Theorem C59_refused can k e f d l : file_wf f -> plt_size f < 2 ^ 63 -> refused f \/ e_open e = false ->
  exists g m, do_call can (CPlt k e f) (d, l) = Thr (d, set_log k g l) (ETec m) /\ fl_error g = m.
Proof.
  intros Hw Hs H. destruct (C42_refused e f Hw H Hs) as (s & g & m & E & E1 & E2 & _). exists g, m.
  cbn [do_call fst snd]. rewrite E. unfold after_plt. rewrite E2. auto.
Qed.
Print Assumptions C59_refused.
Example C59_ex_refused : let f := mkFile "." "out" "t" ["x"]%string 0 [] [zone1] 0 in file_wf f /\ plt_size f < 2 ^ 63 /\ refused f.
Proof. destruct C42_ex_refused as (A & B & C). auto. Qed.

(** Out of memory on the way: an older data file of that name is lost, and the log says nothing of an error. *)
Theorem C59_lost can k e f d l i v : file_wf f -> plt_size f < 2 ^ 63 -> ~ refused f -> e_open e = true -> short f -> calm e ->
  first_starved e f i v ->
  exists g m b, do_call can (CPlt k e f) (d, l) = Thr (store (c_str (name_in f ".plt")) b d, set_log k g l) (ETec m) /\
    fl_error g = ""%string.
Proof.
  intros Hw Hs H1 H2 H3 H4 H5. destruct (C42_leak e f i v Hw Hs H1 H2 H3 H4 H5) as (s & g & m & E & (b & Eb) & _ & _ & Eg).
  exists g, m, b. cbn [do_call fst snd]. rewrite E. split; [|exact Eg]. unfold after_plt. rewrite Eb. reflexivity.
Qed.
Print Assumptions C59_lost.

(** The data file and the three files of the log are four different ones; two descriptions share one of them exactly
    if path and name put together are the same. *)
Theorem C59_names f f' e e' : no_nul (f_path f) -> no_nul (f_name f) -> no_nul (f_path f') -> no_nul (f_name f') ->
  In e [".plt"; ".txt"; ".json"; ".xml"]%string -> In e' [".plt"; ".txt"; ".json"; ".xml"]%string ->
  (c_str (name_in f e) = c_str (name_in f' e') <-> e = e' /\ (f_path f ++ "/" ++ f_name f)%string = (f_path f' ++ "/" ++ f_name f')%string).
Proof. exact (names_differ f f' e e'). Qed.
Print Assumptions C59_names.

(** Zones share a file exactly if they have the same name. *)
Theorem C59_zone_names z z' m : no_nul (z_name (zl_zone z)) -> no_nul (z_name (zl_zone z')) ->
  (zone_file m z = zone_file m z' <-> z_name (zl_zone z) = z_name (zl_zone z')).
Proof. exact (zone_names_differ z z' m). Qed.
Print Assumptions C59_zone_names.

(** All zones of a log written one after the other: the file of a zone has its text if no later zone has the same file; all
    other files are as before. *)
Theorem C59_all_zones can m k depth d l : 0 <= depth -> (forall p, can p = true) ->
  let zs := fl_zones (l k) in
  exists d', do_calls (map (fun i => (can, zone_call m k i depth)) (seq 0 (length zs))) (d, l) = Some (d', l) /\
    (forall i z, nth_error zs i = Some z ->
       (forall j z', (i < j)%nat -> nth_error zs j = Some z' -> zone_file m z' <> zone_file m z) ->
       d' (zone_file m z) = Some (bytes_of (head_of m ++ lines (indent m depth) (zown m z)))) /\
    (forall p, (forall z, In z zs -> zone_file m z <> p) -> d' p = d p).
Proof.
  intros Hd Hc zs. destruct (zones_loop can m k depth l Hd Hc (length zs) d (le_n _)) as (d' & E & H1 & H2).
  exists d'. split; [exact E|]. split.
  - intros i z Hz HL. apply (H1 i z); [apply nth_error_Some; fold zs; congruence|exact Hz|]. intros j z' Hj. apply HL. lia.
  - intros p Hp. apply H2. intros i z _ Hz. apply Hp. eapply nth_error_In. exact Hz.
Qed.
Print Assumptions C59_all_zones.

(** The XML file of a zone can be read again. *)
Theorem C59_zone_read e f s g u i z depth : file_wf f -> plt_size f < 2 ^ 63 -> write_plt e f = Ret (s, g) u -> xml_safe f ->
  nth_error (fl_zones g) i = Some z -> 0 <= depth ->
  exists z', same_zone z z' /\ forall fs p, fs (c_str p) = Some (bytes_of (head_of Xml ++ lines (indent Xml depth) (zown Xml z))) ->
    (let* n := load_xml fs p "Zone" in read_zone n) = Ok z'.
Proof. exact (zone_round_trip e f s g u i z depth). Qed.
Print Assumptions C59_zone_read.

(** A program writes data, does something else, writes the log as XML, and does something else.  If meanwhile the log was not assigned
    and the two files not written by other calls, the log can be read from its file, says the same as the one written,
    and its data file is the one written (compare the hypotheses of C44 and C53). *)
Theorem C59_session can0 can1 k e f depth h1 h2 st st1 st2 st3 st4 :
  file_wf f -> plt_size f < 2 ^ 63 -> calm e -> xml_safe f -> plain_text (e_begin e) -> no_nul (f_path f) -> no_nul (f_name f) ->
  0 <= depth <= INT_MAX - 2 ->
  do_call can0 (CPlt k e f) st = Ret st1 tt ->
  do_calls h1 st1 = Some st2 -> keeps k h1 -> spares (c_str (name_in f ".plt")) h1 st1 ->
  do_call can1 (CXml k depth) st2 = Ret st3 tt ->
  do_calls h2 st3 = Some st4 -> spares (c_str (name_in f ".plt")) h2 st3 -> spares (c_str (name_in f ".xml")) h2 st3 ->
  exists s g g', write_plt e f = Ret (s, g) tt /\ same_log g g' /\
    fst st4 (plt_path (f_path f) g) = disk s /\
    forall can j, do_call can (CLoad j (name_in f ".xml")) st4 = Ret (fst st4, set_log j g' (snd st4)) tt.
Proof. exact (session can0 can1 k e f depth h1 h2 st st1 st2 st3 st4). Qed.
Print Assumptions C59_session.

(** ** Examples *)

Definition any : string -> bool := fun _ => true.
Definition none : string -> bool := fun _ => false.
Definition nothing : files * logs := (fun _ => None, fun _ => no_log).
Definition ended (o : out (files * logs) unit) : files * logs := match o with Ret st _ | Thr st _ => st | Undef => nothing end.
Definition came_back (o : out (files * logs) unit) : bool := match o with Ret _ _ => true | _ => false end.
Lemma came_back_ret o : came_back o = true -> o = Ret (ended o) tt.
Proof. destruct o as [st []| |]; [reflexivity|discriminate|discriminate]. Qed.
Definition last_of (o : option (files * logs)) : files * logs := match o with Some st => st | None => nothing end.
Definition is_some {A} (o : option A) : bool := match o with Some _ => true | None => false end.
Lemma is_some_last o : is_some o = true -> o = Some (last_of o).
Proof. destruct o; [reflexivity|discriminate]. Qed.
Fixpoint sparesb (p : string) (h : list ((string -> bool) * call)) (st : files * logs) : bool :=
  match h with
  | [] => true
  | (can, c) :: h' =>
      negb (match target (snd st) c with Some q => String.eqb q p | None => false end) &&
      match do_call can c st with Ret st' _ | Thr st' _ => sparesb p h' st' | Undef => true end
  end.
Lemma sparesb_ok p h : forall st, sparesb p h st = true -> spares p h st.
Proof.
  induction h as [|[can c] h IH]; intros st H; [exact I|]. cbn [sparesb] in H. apply andb_prop in H. destruct H as [H1 H2]. cbn [spares]. split.
  - intros C. rewrite C, String.eqb_refl in H1. discriminate H1.
  - destruct (do_call can c st); [apply IH, H2|apply IH, H2|exact I].
Qed.

(** The file of C43_ex; then its echo, its JSON text, which cannot be written, its XML text, the XML text of its zone, the
    same data under another name. *)
Definition lf : tfile := xml_file_ex "my title" "u" third.
Definition lf2 : tfile := mkFile "." "out2" (f_title lf) (f_vars lf) (f_type lf) (f_aux lf) (f_zones lf) (f_echo lf).
Definition lh1 : list ((string -> bool) * call) := [(any, CEcho 0); (none, CJson 0 3)].
Definition lh2 : list ((string -> bool) * call) := [(any, ZXml 0 0 0); (any, CPlt 0 env_ex lf2); (any, CXml 0 0)].
Definition ls1 := ended (do_call any (CPlt 0 env_ex lf) nothing).
Definition ls2 := last_of (do_calls lh1 ls1).
Definition ls3 := ended (do_call any (CXml 0 1) ls2).
Definition ls4 := last_of (do_calls lh2 ls3).
Definition ls_names : list string := ["./out.plt"; "./out.txt"; "./out.json"; "./out.xml"; "./Zone_zone 1.xml"; "./out2.plt"; "./out2.xml"]%string.
Lemma ls_all :
  came_back (do_call any (CPlt 0 env_ex lf) nothing) && (is_some (do_calls lh1 ls1) && (sparesb (c_str (name_in lf ".plt")) lh1 ls1 &&
  (came_back (do_call any (CXml 0 1) ls2) && (is_some (do_calls lh2 ls3) &&
  (sparesb (c_str (name_in lf ".plt")) lh2 ls3 && (sparesb (c_str (name_in lf ".xml")) lh2 ls3 &&
   forallb (fun p => Bool.eqb (is_some (fst ls4 (fst p))) (snd p)) (combine ls_names [true; true; false; true; true; true; true]))))))) = true.
Proof. vm_compute. reflexivity. Qed.
Example C59_ex_session :
  file_wf lf /\ plt_size lf < 2 ^ 63 /\ calm env_ex /\ xml_safe lf /\ plain_text (e_begin env_ex) /\ no_nul (f_path lf) /\ no_nul (f_name lf) /\
  do_call any (CPlt 0 env_ex lf) nothing = Ret ls1 tt /\
  do_calls lh1 ls1 = Some ls2 /\ keeps 0 lh1 /\ spares (c_str (name_in lf ".plt")) lh1 ls1 /\
  do_call any (CXml 0 1) ls2 = Ret ls3 tt /\
  do_calls lh2 ls3 = Some ls4 /\ spares (c_str (name_in lf ".plt")) lh2 ls3 /\ spares (c_str (name_in lf ".xml")) lh2 ls3 /\
  map (fun p => is_some (fst ls4 p)) ls_names = [true; true; false; true; true; true; true].
Proof.
  destruct C43_ex as (H1 & H2 & _ & H4 & H5 & H6).
  split; [exact H1|]. split; [exact H2|]. split; [exact H4|]. split; [exact H5|]. split; [exact H6|].
  split; [unfold no_nul; cbn; intuition discriminate|]. split; [unfold no_nul; cbn; intuition discriminate|].
  pose proof ls_all as H. do 7 (apply andb_prop in H; let X := fresh "X" in destruct H as [X H]).
  split; [apply came_back_ret, X|]. split; [apply is_some_last, X0|]. split; [repeat constructor|].
  split; [apply sparesb_ok, X1|]. split; [apply came_back_ret, X2|]. split; [apply is_some_last, X3|].
  split; [apply sparesb_ok, X4|]. split; [apply sparesb_ok, X5|].
  clear - H. revert H. generalize (fst ls4). intros d H. unfold ls_names in *. cbn [combine forallb fst snd] in H.
  do 7 (apply andb_prop in H; let X := fresh "X" in destruct H as [X H]; apply Bool.eqb_prop in X). cbn [map].
  rewrite X, X0, X1, X2, X3, X4, X5. reflexivity.
Qed.
(** The states of that program are reached, and the log read back can be written again. *)
Definition lh : list ((string -> bool) * call) := (any, CPlt 0 env_ex lf) :: lh1 ++ (any, CXml 0 1) :: lh2 ++ [(any, CLoad 5 "./out.xml")].
Example C59_ex_reached : exists d l, reached lh d l /\ f_title (fl_file (l 5%nat)) = "my title"%string /\ length (fl_zones (l 5%nat)) = 1%nat.
Proof.
  destruct C59_ex_session as (H1 & H2 & H3 & H4 & H5 & H6 & H7 & E1 & E2 & K & S1 & E3 & E4 & S2 & S3 & _).
  assert (D : 0 <= 1 <= INT_MAX - 2) by lia.
  destruct (C59_session any any 0 env_ex lf 1 lh1 lh2 nothing ls1 ls2 ls3 ls4 H1 H2 H3 H4 H5 H6 H7 D E1 E2 K S1 E3 E4 S2 S3) as (s & g & g' & EP & HS & _ & HL).
  specialize (HL any 5%nat). change (name_in lf ".xml") with "./out.xml"%string in HL.
  exists (fst ls4), (set_log 5 g' (snd ls4)). split; [split|].
  - assert (F : fair (CPlt 0 env_ex lf)) by (split; [exact H1|exact H2]).
    assert (F2 : fair (CPlt 0 env_ex lf2)) by (split; [exact H1|vm_compute; reflexivity]).
    unfold lh, lh1, lh2. cbn [app]. repeat (apply Forall_cons; [cbn [snd]; first [exact F|exact F2|exact I]|]). apply Forall_nil.
  - exists (fst nothing). change (fst nothing, fun _ => no_log) with nothing. unfold lh.
    rewrite do_calls_cons, E1. cbn [outcome]. rewrite do_calls_app, E2. rewrite do_calls_cons, E3. cbn [outcome]. rewrite do_calls_app, E4.
    rewrite do_calls_cons, HL. reflexivity.
  - change (set_log 5 g' (snd ls4) 5%nat) with g'.
    destruct (P_TecFile.C40_texts env_ex lf s g tt 0 H1 H2 EP) as (EZ & _).
    pose proof (L_TecWhole.write_spec env_ex lf H1 H2) as W. rewrite EP in W.
    destruct W as (_ & _ & _ & _ & pvs & _ & _ & _ & _ & _ & Hf & _).
    destruct HS as (_ & _ & T & _ & _ & _ & _ & _ & HZ). rewrite T, Hf. split; [reflexivity|].
    rewrite <- (L_ReadLog.Forall2_len _ _ _ HZ) || rewrite (L_ReadLog.Forall2_len _ _ _ HZ). rewrite <- (map_length zl_zone), EZ. reflexivity.
Qed.

(** ** What is not so *)

(** ordered_tec.h:274, 285 and 298: the file of a zone is (FilePath)/Zone_(ZoneName).  It is not: the path of the file is not used. *)
Definition named (s : string) (z : zone) : zone :=
  mkZone s (z_strand z) (z_time z) (z_max z) (z_skip z) (z_begin z) (z_end z) (z_aux z) (z_data z) (z_echo z).
Definition twice : tfile := mkFile "data" "out" "t" ["x"; "y"]%string 0 [] [named "z" zone1; named "z" zone2] 0.
Definition twice_h : list ((string -> bool) * call) := [(any, CPlt 0 env_ex twice); (any, ZXml 0 0 0); (any, ZXml 0 1 0)].
Lemma twice_wf : file_wf twice.
Proof.
  destruct file_ex_wf as (_ & _ & _ & H4). pose proof (Forall_inv H4) as Z1. pose proof (Forall_inv (Forall_inv_tail H4)) as Z2.
  split; [unfold in_int; cbn; lia|]. split; [cbn; lia|]. split; [cbn; lia|]. apply Forall_cons; [exact Z1|]. apply Forall_cons; [exact Z2|apply Forall_nil].
Qed.
Definition twice_st := last_of (do_calls twice_h nothing).
Definition zone_same (st : files * logs) (z : zone_log) : bool :=
  match fst st (zone_file Xml z) with
  | Some b => String.eqb (string_of_list_ascii b) (head_of Xml ++ lines 0 (zl_xml z)) | None => false end.
Definition lost (name : string) (st : files * logs) : bool :=
  match nth_error (fl_zones (snd st 0%nat)) 0 with
  | Some z => String.eqb (z_name (zl_zone z)) name && negb (zone_same st z)
  | None => false end.
Lemma zone_same_not st z : zone_same st z = false -> fst st (zone_file Xml z) <> Some (bytes_of (head_of Xml ++ lines 0 (zl_xml z))).
Proof.
  intros H C. unfold zone_same in H. rewrite C in H. unfold bytes_of in H. rewrite string_of_list_ascii_of_string, String.eqb_refl in H. discriminate H.
Qed.
Lemma twice_all : is_some (do_calls twice_h nothing) &&
  (String.eqb (f_path (fl_file (snd twice_st 0%nat))) "data" && (negb (is_some (fst twice_st "data/Zone_z.xml"%string)) && (is_some (fst twice_st "./Zone_z.xml"%string) &&
   lost "z" twice_st))) = true.
Proof. vm_compute. reflexivity. Qed.
Lemma twice_facts : is_some (do_calls twice_h nothing) = true /\ f_path (fl_file (snd twice_st 0%nat)) = "data"%string /\ fst twice_st "data/Zone_z.xml"%string = None /\ fst twice_st "./Zone_z.xml"%string <> None /\
  exists z, nth_error (fl_zones (snd twice_st 0%nat)) 0 = Some z /\ z_name (zl_zone z) = "z"%string /\ zone_same twice_st z = false.
Proof.
  pose proof twice_all as H. generalize dependent twice_st. intros st H.
  apply andb_prop in H. destruct H as [H1 H]. apply andb_prop in H. destruct H as [H2 H]. apply andb_prop in H. destruct H as [H3 H].
  apply andb_prop in H. destruct H as [H4 H]. split; [exact H1|]. split; [apply String.eqb_eq, H2|].
  split; [destruct (fst st "data/Zone_z.xml"%string); [discriminate H3|reflexivity]|].
  split; [destruct (fst st "./Zone_z.xml"%string); [discriminate|discriminate H4]|].
  unfold lost in H. destruct (nth_error _ _) as [z|]; [|discriminate H]. apply andb_prop in H. destruct H as [H5 H6]. exists z. split; [reflexivity|].
  split; [apply String.eqb_eq, H5|]. destruct (zone_same st z); [discriminate H6|reflexivity].
Qed.
Lemma twice_reached : reached twice_h (fst twice_st) (snd twice_st).
Proof.
  split.
  - assert (F : fair (CPlt 0 env_ex twice)) by (split; [exact twice_wf|vm_compute; reflexivity]).
    unfold twice_h. repeat (apply Forall_cons; [cbn [snd]; first [exact F|exact I]|]). apply Forall_nil.
  - exists (fst nothing). change (fst nothing, fun _ => no_log) with nothing. destruct twice_facts as (E & _). apply is_some_last in E.
    rewrite E. unfold twice_st. destruct (last_of _); reflexivity.
Qed.
Theorem C59_zone_path_refuted : exists h d l z, reached h d l /\ nth_error (fl_zones (l 0%nat)) 0 = Some z /\
  f_path (fl_file (l 0%nat)) = "data"%string /\ z_name (zl_zone z) = "z"%string /\ In (ZXml 0 0 0) (map snd h) /\
  d "data/Zone_z.xml"%string = None /\ d "./Zone_z.xml"%string <> None.
Proof.
  destruct twice_facts as (_ & H1 & H2 & H3 & z & H4 & H5 & _). exists twice_h, (fst twice_st), (snd twice_st), z.
  split; [exact twice_reached|]. split; [exact H4|]. split; [exact H1|]. split; [exact H5|]. split; [right; left; reflexivity|]. split; assumption.
Qed.
Print Assumptions C59_zone_path_refuted.

(** Each zone has its own file: not if two zones have the same name, which write_plt accepts. *)
Theorem C59_zone_files_refuted : exists h d l z, reached h d l /\ nth_error (fl_zones (l 0%nat)) 0 = Some z /\ In (ZXml 0 0 0) (map snd h) /\
  d (zone_file Xml z) <> Some (bytes_of (head_of Xml ++ lines 0 (zl_xml z))).
Proof.
  destruct twice_facts as (_ & _ & _ & _ & z & H4 & _ & H5). exists twice_h, (fst twice_st), (snd twice_st), z.
  split; [exact twice_reached|]. split; [exact H4|]. split; [right; left; reflexivity|].
  apply zone_same_not, H5.
Qed.
Print Assumptions C59_zone_files_refuted.
