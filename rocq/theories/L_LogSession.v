(** Programs with files of logs. *)

From Coq Require Import ZArith Ascii String List Bool Lia Arith.
From Verif Require Import Base M_Bytes M_TecZone M_TecFile Spec_Loop Spec_Tec Spec_Plt Spec_Aux Spec_Xml L_Base L_Loop L_TecZone L_TecMin L_Text L_Plt
  L_TecWrite L_TecFile L_TecText L_TecWhole L_TecProp L_Aux L_ReadLog
  M_Scan M_Xml M_ReadXml L_Scan L_ScanF L_Near L_Xml L_XmlSeq L_XmlText L_XmlLog M_LogFiles Spec_LogFiles L_LogFiles Spec_Log.
Import ListNotations.
Open Scope list_scope.
Open Scope string_scope.
Open Scope Z_scope.

(** ** Writing *)

Lemma log_written h d l can m k depth : reached h d l -> 0 <= depth <= INT_MAX - 2 -> can (log_file m (l k)) = true ->
  exists d' t n, do_call can (log_call m k depth) (d, l) = Ret (d', l) tt /\
    (n <= length (fl_zones (l k)))%nat /\ printed (indent m depth) (indent2 m depth) (zown m) (fl_zones (l k)) n (own m (l k)) (Ok t) /\
    d' (log_file m (l k)) = Some (bytes_of (head_of m ++ t)) /\ forall q, q <> log_file m (l k) -> d' q = d q.
Proof.
  intros HR Hd Hc. destruct (put_log_wrote can m (l k) depth d Hd (reached_printable h d l HR k)) as (t & n & H1 & H2 & _ & H3).
  apply (on_wrote _ _ _ _ _ l) in H3. fold (log_file m (l k)) in H3. rewrite Hc in H3. destruct H3 as (d' & E1 & E2 & E3).
  exists d', t, n. rewrite do_log. auto.
Qed.
Lemma log_not_opened d l can m k depth : can (log_file m (l k)) = false ->
  do_call can (log_call m k depth) (d, l) = Thr (d, l) (ETec ("can not open file " ++ name_in (fl_file (l k)) (ext m))).
Proof.
  intros Hc. rewrite do_log. cbn [snd]. unfold on_files, put_log, put_echo, put_json, put_xml, of_open, bind. cbn [fst snd].
  destruct m; unfold log_file in Hc; cbn [ext] in *; change (name_in (fl_file (l k))) with (log_name (l k)) in *; rewrite Hc; reflexivity.
Qed.
Lemma zone_written d l (can : string -> bool) m k i depth z : nth_error (fl_zones (l k)) i = Some z -> 0 <= depth ->
  if can (zone_file m z) then
    exists d', do_call can (zone_call m k i depth) (d, l) = Ret (d', l) tt /\
      d' (zone_file m z) = Some (bytes_of (head_of m ++ lines (indent m depth) (zown m z))) /\ forall q, q <> zone_file m z -> d' q = d q
  else do_call can (zone_call m k i depth) (d, l) = Thr (d, l) (ETec ("can not open file " ++ zname_in z (ext m))).
Proof.
  intros Ez Hd. rewrite (do_zone can m k i depth (d, l) z Ez). pose proof (put_zone_wrote can m z depth d Hd) as W.
  apply (on_wrote _ _ _ _ _ l) in W. exact W.
Qed.

(** ** Depths *)

Lemma texts_have e f s g u : file_wf f -> plt_size f < 2 ^ 63 -> write_plt e f = Ret (s, g) u ->
  (exists x, In x (fl_json g) /\ x <> ZONE_LINE) /\ (exists x, In x (fl_xml g) /\ x <> ZONE_LINE) /\
  (f_zones f <> [] -> In ZONE_LINE (fl_json g) /\ In ZONE_LINE (fl_xml g)).
Proof.
  intros Hw Hs E. pose proof (write_spec e f Hw Hs) as H. rewrite E in H.
  destruct H as (_ & _ & _ & _ & pvs & _ & _ & _ & H2 & _ & _ & _ & _ & _ & _ & _ & C1 & C2 & C3 & gs & t & Eg & _).
  unfold gen_texts in Eg. destruct (map_res gen_zone _) as [zs|x|]; try discriminate Eg. cbn [rbind] in Eg.
  match type of Eg with rbind (file_json ?l) _ = _ => set (l0 := l) in * end.
  destruct (file_json l0) as [j|x|] eqn:Ej; try discriminate Eg. cbn [rbind] in Eg.
  destruct (file_xml l0) as [xm|x|] eqn:Ex; try discriminate Eg. cbn [rbind] in Eg. injection Eg as Eg.
  assert (J : fl_json g = j) by (rewrite <- Eg; reflexivity). assert (X : fl_xml g = xm) by (rewrite <- Eg; reflexivity). rewrite J, X in *.
  split; [|split].
  - apply emit_lines in Ej. rewrite Ej. eexists. split; [left; reflexivity|]. discriminate.
  - apply emit_lines in Ex. rewrite Ex. eexists. split; [left; reflexivity|]. discriminate.
  - intros Hz. assert (0 < length (f_zones f))%nat by (destruct (f_zones f); [congruence|cbn; lia]).
    unfold zcount in C2, C3. split; apply (count_occ_In string_dec); lia.
Qed.
Lemma bad_depth e f s g u can m k depth d l : file_wf f -> plt_size f < 2 ^ 63 -> write_plt e f = Ret (s, g) u ->
  l k = g -> m <> Txt -> can (log_file m g) = true ->
  depth < 0 \/ (INT_MAX - 2 < depth /\ f_zones f <> []) ->
  do_call can (log_call m k depth) (d, l) = Undef.
Proof.
  intros Hw Hs E Hk Hm Hc Hd. rewrite do_log. cbn [snd]. rewrite Hk. destruct (texts_have e f s g u Hw Hs E) as (T1 & T2 & T3).
  unfold on_files, put_log, put_json, put_xml, of_open, bind, lift. cbn [fst snd].
  destruct m; [contradiction| |]; unfold log_file in Hc; cbn [ext] in Hc; change (name_in (fl_file g)) with (log_name g) in Hc; rewrite Hc.
  - rewrite file_z_ub; [reflexivity|]. destruct Hd as [Hd|[Hd Hz]]; [left; auto|right; split; [exact Hd|apply T3, Hz]].
  - unfold of_put. rewrite store_same. rewrite file_z_ub; [reflexivity|]. destruct Hd as [Hd|[Hd Hz]]; [left; auto|right; split; [exact Hd|apply T3, Hz]].
Qed.

(** ** Names *)

Definition exts : list string := [".plt"; ".txt"; ".json"; ".xml"].
Lemma ext_inj a b e e' : In e exts -> In e' exts -> a ++ e = b ++ e' -> a = b /\ e = e'.
Proof.
  intros He He' E. apply (f_equal (fun s => rev (list_ascii_of_string s))) in E. rewrite !ascii_app, !rev_app_distr in E.
  assert (K : forall x y : list ascii, rev x = rev y -> x = y) by (intros x y H; rewrite <- (rev_involutive x), H; apply rev_involutive).
  assert (J : list_ascii_of_string a = list_ascii_of_string b -> a = b)
    by (intros H; rewrite <- (string_of_list_ascii_of_string a), H; apply string_of_list_ascii_of_string).
  cbn [exts In] in He, He'.
  repeat match goal with H : _ \/ _ |- _ => destruct H as [<-|H] | H : False |- _ => destruct H end;
    cbn [list_ascii_of_string rev app] in E; try discriminate E; (split; [|reflexivity]); apply J, K; injection E as E; exact E.
Qed.
Lemma no_nul_app a b : no_nul a -> no_nul b -> no_nul (a ++ b).
Proof. unfold no_nul. rewrite ascii_app. intros H1 H2 H. apply in_app_or in H. tauto. Qed.
Lemma no_nul_str s : no_nul s -> c_str s = s.
Proof.
  intros H. apply c_str_id. intros c Hc E. apply H. assert (c = ascii_of_nat 0); [|congruence].
  apply b2z_inj. rewrite E. reflexivity.
Qed.
Lemma ext_no_nul e : In e exts -> no_nul e.
Proof.
  cbn [exts In]. intros He. repeat match goal with H : _ \/ _ |- _ => destruct H as [<-|H] | H : False |- _ => destruct H end;
    unfold no_nul; cbn; intuition discriminate.
Qed.
Lemma names_differ f f' e e' : no_nul (f_path f) -> no_nul (f_name f) -> no_nul (f_path f') -> no_nul (f_name f') -> In e exts -> In e' exts ->
  (c_str (name_in f e) = c_str (name_in f' e') <-> e = e' /\ (f_path f ++ "/" ++ f_name f) = (f_path f' ++ "/" ++ f_name f')).
Proof.
  intros H1 H2 H3 H4 He He'. unfold name_in.
  assert (S : no_nul "/") by (unfold no_nul; cbn; intuition discriminate).
  rewrite !no_nul_str by (repeat apply no_nul_app; try assumption; apply ext_no_nul; assumption).
  split.
  - intros E. rewrite <- !append_assoc in E. apply ext_inj in E; [|assumption|assumption]. destruct E as [E1 E2]. rewrite !append_assoc in E1. auto.
  - intros [<- E]. rewrite <- !append_assoc. f_equal. rewrite !append_assoc. exact E.
Qed.
Lemma append_inj_l a b c : a ++ b = a ++ c -> b = c.
Proof. induction a as [|x a IH]; [exact (fun H => H)|]. cbn. intros H. injection H as H. apply IH, H. Qed.
Lemma zone_names_differ z z' m : no_nul (z_name (zl_zone z)) -> no_nul (z_name (zl_zone z')) ->
  (zone_file m z = zone_file m z' <-> z_name (zl_zone z) = z_name (zl_zone z')).
Proof.
  intros H1 H2. unfold zone_file, zname_in.
  assert (S : no_nul "./Zone_") by (unfold no_nul; cbn; intuition discriminate).
  assert (HE : In (ext m) exts) by (destruct m; cbn; auto).
  rewrite !no_nul_str by (repeat apply no_nul_app; try assumption; apply ext_no_nul; assumption). split; [|intros ->; reflexivity].
  intros E. apply append_inj_l in E. apply ext_inj in E; [apply E|assumption|assumption].
Qed.

(** ** All zones of a log *)

Lemma zones_loop can m k depth l : 0 <= depth -> (forall p, can p = true) -> forall n d, (n <= length (fl_zones (l k)))%nat ->
  exists d', do_calls (map (fun i => (can, zone_call m k i depth)) (seq 0 n)) (d, l) = Some (d', l) /\
    (forall i z, (i < n)%nat -> nth_error (fl_zones (l k)) i = Some z ->
       (forall j z', (i < j < n)%nat -> nth_error (fl_zones (l k)) j = Some z' -> zone_file m z' <> zone_file m z) ->
       d' (zone_file m z) = Some (bytes_of (head_of m ++ lines (indent m depth) (zown m z)))) /\
    (forall p, (forall i z, (i < n)%nat -> nth_error (fl_zones (l k)) i = Some z -> zone_file m z <> p) -> d' p = d p).
Proof.
  intros Hd Hc. induction n as [|n IH]; intros d Hn.
  - exists d. split; [reflexivity|]. split; [intros i z Hi; lia|reflexivity].
  - destruct (IH d ltac:(lia)) as (d1 & E & H1 & H2). rewrite seq_S, map_app, do_calls_app, E. cbn [map plus].
    destruct (nth_error (fl_zones (l k)) n) as [z|] eqn:Ez; [|apply nth_error_None in Ez; lia].
    pose proof (zone_written d1 l can m k n depth z Ez Hd) as W. rewrite Hc in W. destruct W as (d2 & W1 & W2 & W3).
    exists d2. split; [rewrite do_calls_cons, W1; reflexivity|]. split.
    + intros i z' Hi Hz HL. destruct (Nat.eq_dec i n) as [->|Hne]; [rewrite Ez in Hz; injection Hz as <-; exact W2|].
      rewrite W3 by (intros C; apply (HL n z ltac:(lia) Ez); congruence). apply (H1 i z' ltac:(lia) Hz). intros j z'' Hj. apply HL. lia.
    + intros p Hp. rewrite W3 by (intros C; apply (Hp n z ltac:(lia) Ez); congruence). apply H2. intros i z' Hi. apply Hp. lia.
Qed.

(** ** Reading the XML file of a zone *)

Lemma zone_loads z depth : zone_xml z = Ok (zl_xml z) -> xml_zone (zl_zone z) ->
  exists dn, is_elem dn = false /\ load_text (zone_xml_file z depth) = inl [dn; zone_node z].
Proof.
  intros E H. destruct (zone_body z _ depth E H) as (ls & EL & HS). unfold zone_xml_file. rewrite EL, out_block.
  rewrite (block_text depth "" "Zone") by (apply chars_nil || (apply lit_name; reflexivity) || apply zone_attrs, H). rewrite append_nil_r.
  assert (HB : Body (NL ++ zone_text_out depth ls ++ tabs depth ++ "") (zone_kids z)) by (apply Seq_Body, block_body; [apply chars_nil|exact HS]).
  rewrite append_nil_r in HB. set (m := NL ++ zone_text_out depth ls ++ tabs depth) in *.
  assert (NN : nonul (xml_line ++ NL ++ tabs depth ++ elem_text "Zone" [("ZoneName", z_name (zl_zone z))] m ++ NL)).
  { capp; try (apply lit_nonul; reflexivity); [apply space_nonul, tabs_space|]. apply elem_nonul; [apply lit_name; reflexivity|apply zone_attrs, H|apply HB]. }
  eexists. split; cycle 1.
  - rewrite (load_parse _ _ NN (decl_first _)) by discriminate. rewrite parse_decl.
    rewrite (parse_ws true true NL) by (apply NL_space || (unfold lt_ahead; rewrite skip_ws_app by apply tabs_space; eexists; reflexivity)).
    rewrite (parse_ws true true (tabs depth)) by (apply tabs_space || (eexists; reflexivity)).
    rewrite (parse_elem true true "Zone" _ m (zone_kids z)) by (exact HB || apply zone_attrs, H || (apply lit_name; reflexivity)).
    rewrite parse_blank by apply NL_space. reflexivity.
  - reflexivity.
Qed.

Lemma zone_round_trip e f s g u i z depth : file_wf f -> plt_size f < 2 ^ 63 -> write_plt e f = Ret (s, g) u -> xml_safe f ->
  nth_error (fl_zones g) i = Some z -> 0 <= depth ->
  exists z', same_zone z z' /\ forall fs p, fs (c_str p) = Some (bytes_of (head_of Xml ++ lines (indent Xml depth) (zown Xml z))) ->
    (let* n := load_xml fs p "Zone" in read_zone n) = Ok z'.
Proof.
  intros Hw Hs E Hx Hz Hd. pose proof (written_ints e f s g u Hw Hs E) as HI.
  pose proof (write_spec e f Hw Hs) as H. rewrite E in H.
  destruct H as (Hr & _ & Hsh & _ & pvs & _ & _ & _ & Hzz & _ & Hf & Hbeg & _ & Hus & _ & _ & _ & _ & _ & gs & t & Eg & Hbare).
  assert (HX : Forall (fun z => zl_xml z = []) gs) by (clear - Hbare; induction Hbare as [|z g' zs gs (_ & _ & _ & H) H2 IH]; constructor; assumption).
  destruct (gen_texts_text _ _ Eg eq_refl HX) as (_ & EZ & _).
  assert (Hin : In z (fl_zones g)) by (eapply nth_error_In; exact Hz).
  assert (Hinz : In (zl_zone z) (f_zones f)) by (rewrite <- Hzz; apply in_map, Hin).
  assert (XZ : xml_zone (zl_zone z)) by (destruct Hx as [(_ & _ & _ & _ & _ & HZ) _]; rewrite Forall_forall in HZ; apply HZ, Hinz).
  rewrite Forall_forall in EZ, HI. specialize (EZ z Hin). specialize (HI z Hin).
  pose proof (read_zone_ok (Some 0) z HI XZ) as HR.
  assert (NB : zone_blank (zl_zone z) = false).
  { destruct (zone_blank (zl_zone z)) eqn:EB; [|reflexivity]. apply zone_blank_iff in EB. destruct EB as (x & Hin2 & Hsp).
    destruct Hx as [_ Hc]. rewrite Forall_forall in Hc. destruct (Hc x); [|exact Hsp]. unfold contents. right. right. apply in_or_app. right.
    apply in_flat_map. exists (zl_zone z). auto. }
  rewrite NB in HR. destruct HR as (z' & ER & HS). exists z'. split; [exact HS|]. intros fs p Efs.
  destruct (zone_loads z (Z.to_nat depth) EZ XZ) as (dn & Hdn & EL). unfold load_xml. rewrite Efs. unfold bytes_of. rewrite string_of_list_ascii_of_string.
  assert (EF : head_of Xml ++ lines (indent Xml depth) (zown Xml z) = zone_xml_file z (Z.to_nat depth)).
  { unfold zone_xml_file. rewrite zone_text_eq. cbn [head_of indent zown]. rewrite append_assoc. reflexivity. }
  rewrite EF, EL.
  assert (EC : child (NElem "" [] [dn; zone_node z]) (c_str "Zone") = Some (zone_node z)).
  { unfold child, elems. cbn [kids filter]. rewrite Hdn. reflexivity. }
  rewrite EC. exact ER.
Qed.

(** ** Sessions *)

Theorem session can0 can1 k e f depth h1 h2 st st1 st2 st3 st4 :
  file_wf f -> plt_size f < 2 ^ 63 -> calm e -> xml_safe f -> plain_text (e_begin e) -> no_nul (f_path f) -> no_nul (f_name f) ->
  0 <= depth <= INT_MAX - 2 ->
  do_call can0 (CPlt k e f) st = Ret st1 tt ->
  do_calls h1 st1 = Some st2 -> keeps k h1 -> spares (c_str (name_in f ".plt")) h1 st1 ->
  do_call can1 (CXml k depth) st2 = Ret st3 tt ->
  do_calls h2 st3 = Some st4 -> spares (c_str (name_in f ".plt")) h2 st3 -> spares (c_str (name_in f ".xml")) h2 st3 ->
  exists s g g', write_plt e f = Ret (s, g) tt /\ same_log g g' /\
    fst st4 (plt_path (f_path f) g) = disk s /\
    forall can j, do_call can (CLoad j (name_in f ".xml")) st4 = Ret (fst st4, set_log j g' (snd st4)) tt.
Proof.
  intros Hw Hs Hc Hx Hb N1 N2 Hd E1 E2 K1 S1 E3 E4 S2 S3.
  cbn [do_call] in E1. destruct (write_plt e f) as [[s g] []|[s g] x|] eqn:EP; try discriminate E1. injection E1 as E1.
  pose proof (write_spec e f Hw Hs) as H. rewrite EP in H.
  destruct H as (_ & _ & _ & _ & pvs & _ & Es & _ & _ & _ & Hf & _).
  assert (Hpr : printable g) by (pose proof (printable_plt e f Hw Hs) as P; rewrite EP in P; exact P).
  assert (L1 : snd st1 k = g) by (rewrite <- E1; cbn [snd]; unfold set_log; rewrite Nat.eqb_refl; reflexivity).
  assert (L2 : snd st2 k = g) by (rewrite (frame_log _ _ _ _ E2 K1); exact L1).
  assert (F1 : fst st1 (c_str (name_in f ".plt")) = disk s).
  { rewrite <- E1, Es. cbn [fst]. unfold after_plt. cbn [disk]. apply store_same. }
  assert (F2 : fst st2 (c_str (name_in f ".plt")) = disk s) by (rewrite (frame _ _ _ _ E2 S1); exact F1).
  assert (NE : c_str (name_in f ".plt") <> c_str (name_in f ".xml")).
  { intros C. apply names_differ in C; try assumption; [destruct C; discriminate|cbn; auto|cbn; auto]. }
  destruct (put_log_wrote can1 Xml g depth (fst st2) Hd Hpr) as (t & n & _ & _ & ET & W).
  apply (on_wrote _ _ _ _ _ (snd st2)) in W. rewrite Hf in W. cbn [ext] in W.
  change (do_call can1 (CXml k depth) st2) with (do_call can1 (log_call Xml k depth) st2) in E3. rewrite do_log, L2 in E3.
  destruct st2 as [d2 l2]. cbn [fst snd] in *. destruct (can1 _); [|rewrite W in E3; discriminate E3].
  destruct W as (d3 & W1 & W2 & W3). rewrite W1 in E3. injection E3 as E3.
  assert (F3 : fst st4 (c_str (name_in f ".plt")) = disk s).
  { rewrite (frame _ _ _ _ E4 S2), <- E3. cbn [fst]. rewrite W3 by exact NE. exact F2. }
  assert (X3 : fst st4 (c_str (name_in f ".xml")) = Some (bytes_of (head_of Xml ++ t))).
  { rewrite (frame _ _ _ _ E4 S3), <- E3. exact W2. }
  destruct (log_round_trip e f s g tt (Z.to_nat depth) Hw Hs EP Hc Hx Hb) as (xt & g' & EX & HS & HR).
  exists s, g, g'. split; [reflexivity|]. split; [exact HS|]. split.
  - unfold plt_path. rewrite Hf. exact F3.
  - intros can j. cbn [do_call]. rewrite (HR (fst st4) (name_in f ".xml")); [reflexivity|]. rewrite X3. f_equal. unfold bytes_of. f_equal.
    unfold xml_file in EX. change (write_xml g (Z.to_nat depth) = Ok t) in ET.
    rewrite ET in EX. cbn [rbind] in EX. injection EX as <-. cbn [head_of]. rewrite append_assoc. reflexivity.
Qed.
