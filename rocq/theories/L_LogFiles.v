(** Lemmas about the files of logs. *)

From Coq Require Import ZArith Ascii String List Bool Lia Arith.
From Verif Require Import Base M_Bytes M_TecZone M_TecFile Spec_Loop Spec_Tec Spec_Plt Spec_Aux Spec_Xml L_Base L_Loop L_TecZone L_TecMin L_Text L_Plt
  L_TecWrite L_TecFile L_TecText L_TecWhole L_TecProp L_Aux L_ReadLog
  M_Scan M_Xml M_ReadXml L_Scan L_ScanF L_Near L_Xml L_XmlSeq L_XmlText L_XmlLog M_LogFiles Spec_LogFiles.
Import ListNotations.
Open Scope list_scope.
Open Scope string_scope.
Open Scope Z_scope.

(** ** Texts *)

Lemma line_z_eq depth s : 0 <= depth -> line_z depth s = Ok (line_out (Z.to_nat depth) s).
Proof. intros H. unfold line_z, tabs_z. destruct (Z.ltb_spec depth 0); [lia|]. reflexivity. Qed.
Lemma zone_z_eq depth t : 0 <= depth -> zone_z depth t = Ok (zone_text_out (Z.to_nat depth) t).
Proof.
  intros H. induction t as [|s t IH]; [reflexivity|]. cbn [zone_z]. rewrite line_z_eq by assumption. cbn [rbind]. rewrite IH. cbn [rbind].
  rewrite out_cons. reflexivity.
Qed.
Lemma file_z_eq depth zt t : 0 <= depth <= INT_MAX - 2 -> forall zs,
  file_z depth zt zs t = file_text_out (Z.to_nat depth + 2) (Z.to_nat depth) zt zs t.
Proof.
  intros H. induction t as [|s t IH]; intros zs; [reflexivity|]. cbn [file_z file_text_out]. destruct (String.eqb s ZONE_LINE).
  - destruct zs as [|z zs]; [reflexivity|]. unfold iadd, ck. 
    assert (E : in_intb (depth + 2) = true) by (unfold in_intb; apply andb_true_iff; split; apply Z.leb_le; lia).
    rewrite E. cbn [rbind]. rewrite zone_z_eq by lia. cbn [rbind]. rewrite IH. rewrite Z2Nat.inj_add by lia. change (Z.to_nat 2) with 2%nat.
    destruct (file_text_out _ _ _ _ _); reflexivity.
  - rewrite line_z_eq by lia. cbn [rbind]. rewrite IH. destruct (file_text_out _ _ _ _ _); reflexivity.
Qed.

Lemma zone_z_cases depth t : (exists r, zone_z depth t = Ok r) \/ zone_z depth t = UB.
Proof.
  induction t as [|s t IH]; [left; eexists; reflexivity|]. cbn [zone_z]. unfold line_z, tabs_z. destruct (depth <? 0); cbn [rbind]; [right; reflexivity|].
  destruct IH as [[r ->]| ->]; cbn [rbind]; [left; eexists; reflexivity|right; reflexivity].
Qed.
Lemma file_z_ub depth zt t : (depth < 0 /\ (exists s, In s t /\ s <> ZONE_LINE)) \/ (INT_MAX - 2 < depth /\ In ZONE_LINE t) -> forall zs,
  file_z depth zt zs t = UB.
Proof.
  intros H. induction t as [|s t IH]; intros zs; [destruct H as [(_ & s & [] & _)|(_ & [])]|]. cbn [file_z].
  destruct (String.eqb_spec s ZONE_LINE) as [E|E].
  - destruct zs as [|z zs]; [reflexivity|]. unfold iadd, ck. destruct (in_intb (depth + 2)) eqn:EI; [|reflexivity]. cbn [rbind].
    destruct (zone_z_cases (depth + 2) (zt z)) as [[r ->]| ->]; [|reflexivity]. cbn [rbind]. rewrite IH; [reflexivity|].
    destruct H as [(H1 & s' & [H2|H2] & H3)|(H1 & H2)].
    + subst. contradiction.
    + left. split; [exact H1|]. exists s'. auto.
    + unfold in_intb in EI. apply andb_true_iff in EI. destruct EI as [_ EI]. apply Z.leb_le in EI. lia.
  - unfold line_z, tabs_z. destruct (Z.ltb_spec depth 0) as [Hd|Hd]; cbn [rbind]; [reflexivity|]. rewrite IH; [reflexivity|].
    destruct H as [(H1 & _)|(H1 & [H2|H2])]; [lia|congruence|right; auto].
Qed.

(** ** Files *)

Lemma store_same p b d : store p b d p = Some b.
Proof. unfold store. rewrite String.eqb_refl. reflexivity. Qed.
Lemma store_other p b d q : q <> p -> store p b d q = d q.
Proof. intros H. unfold store. destruct (String.eqb_spec q p); [contradiction|reflexivity]. Qed.

(** What opening a file and writing a text [t] does. *)
Definition wrote (can : string -> bool) (name : string) (b : bytes) (d : files) (o : out files unit) : Prop :=
  if can (c_str name) then exists d', o = Ret d' tt /\ d' (c_str name) = Some b /\ forall q, q <> c_str name -> d' q = d q
  else o = Thr d (ETec ("can not open file " ++ name)).

Lemma put1 can name t r d : r = Ok t ->
  wrote can name (bytes_of t) d ((of_open can name ;;; do* t := lift r in of_put name t) d).
Proof.
  intros ->. unfold wrote, of_open, bind. destruct (can (c_str name)); [|reflexivity]. unfold lift, of_put. rewrite store_same.
  eexists. split; [reflexivity|]. split; [apply store_same|]. intros q Hq. rewrite !store_other by assumption. reflexivity.
Qed.
Lemma put0 can name t d : wrote can name (bytes_of t) d ((of_open can name ;;; of_put name t) d).
Proof. exact (put1 can name t (Ok t) d eq_refl). Qed.
Lemma ascii_app a b : list_ascii_of_string (a ++ b) = (list_ascii_of_string a ++ list_ascii_of_string b)%list.
Proof. induction a as [|c a IH]; [reflexivity|]. cbn. rewrite IH. reflexivity. Qed.
Lemma put2 can name a t r d : r = Ok t ->
  wrote can name (bytes_of (a ++ t)) d ((of_open can name ;;; of_put name a ;;; do* t := lift r in of_put name t) d).
Proof.
  intros ->. unfold wrote, of_open, bind. destruct (can (c_str name)); [|reflexivity]. unfold lift, of_put. rewrite !store_same.
  eexists. split; [reflexivity|]. split; [rewrite store_same; unfold bytes_of; rewrite ascii_app; reflexivity|]. intros q Hq. rewrite !store_other by assumption. reflexivity.
Qed.
(** Whatever the text is, no other file changes, and no exception is thrown after opening the file. *)
Definition local (p : string) (d : files) (o : out files unit) : Prop :=
  match o with Ret d' _ | Thr d' _ => forall q, q <> p -> d' q = d q | Undef => True end.
Lemma local1 can name r d : local (c_str name) d ((of_open can name ;;; do* t := lift r in of_put name t) d).
Proof.
  unfold local, of_open, bind. destruct (can (c_str name)); [|reflexivity]. unfold lift, of_put. destruct r as [t|x|]; cbv beta iota.
  - rewrite store_same. intros q Hq. rewrite !store_other by assumption. reflexivity.
  - intros q Hq. rewrite store_other by assumption. reflexivity.
  - exact I.
Qed.
Lemma local2 can name a r d : local (c_str name) d ((of_open can name ;;; of_put name a ;;; do* t := lift r in of_put name t) d).
Proof.
  unfold local, of_open, bind. destruct (can (c_str name)); [|reflexivity]. unfold lift, of_put. rewrite store_same. destruct r as [t|x|]; cbv beta iota.
  - rewrite store_same. intros q Hq. rewrite !store_other by assumption. reflexivity.
  - intros q Hq. rewrite !store_other by assumption. reflexivity.
  - exact I.
Qed.

(** ** Calls *)

Definition printable (g : file_log) : Prop := forall m, (zcount (own m g) <= length (fl_zones g))%nat.

Lemma printable_none : printable no_log.
Proof. intros []; cbn; lia. Qed.
Lemma printable_plt e f : file_wf f -> plt_size f < 2 ^ 63 ->
  match write_plt e f with Ret (_, g) _ | Thr (_, g) _ => printable g | Undef => True end.
Proof.
  intros Hw Hs. pose proof (write_spec e f Hw Hs) as H. destruct (write_plt e f) as [[s g] u|[s g] x|]; [| |exact I].
  - destruct H as (_ & _ & _ & _ & pvs & _ & _ & _ & H2 & _ & _ & _ & _ & _ & _ & _ & C1 & C2 & C3 & _).
    assert (Hl : length (fl_zones g) = length (f_zones f)) by (rewrite <- H2, map_length; reflexivity).
    intros []; cbn [own]; lia.
  - destruct H as (y & _ & [(_ & _ & _ & He & Hj & Hx)|[(_ & _ & _ & _ & He & Hj & Hx)|(_ & _ & i & k & b & _ & _ & _ & Hj & Hx & Hl & Hc)]]);
      intros []; cbn [own]; rewrite ?He, ?Hj, ?Hx; cbn; lia.
Qed.
Lemma printable_read fs p g : read_log fs p = Ok g -> printable g.
Proof.
  unfold read_log. destruct (load_xml fs p "File") as [n|x|]; try discriminate. cbn [rbind]. unfold read_xml. intros E.
  repeat match type of E with rbind ?r _ = Ok _ => destruct r; try discriminate E; cbn [rbind] in E end.
  match type of E with gen_texts ?l = _ => destruct (gen_texts_cases l) as [(_ & j & x & gs & E2 & Et & Cj & Cx)|[_ E2]] end; rewrite E2 in E; [|discriminate E].
  injection E as <-. assert (Hl : length gs = length (map textless gs)) by (rewrite map_length; reflexivity).
  rewrite Et, map_length in Hl. cbn [fl_zones] in *. intros []; cbn [own fl_echo fl_json fl_xml fl_zones fl_set_text fl_set_zones app zcount]; [cbn; lia| |]; rewrite Hl; lia.
Qed.

Definition put_log (can : string -> bool) (m : form) (g : file_log) (depth : Z) : M files unit :=
  match m with Txt => put_echo can g | Json => put_json can g depth | Xml => put_xml can g depth end.
Definition put_zone (can : string -> bool) (m : form) (z : zone_log) (depth : Z) : M files unit :=
  match m with Txt => zput_echo can z | Json => zput_json can z depth | Xml => zput_xml can z depth end.
Lemma do_log can m k depth (st : files * logs) : do_call can (log_call m k depth) st = on_files (put_log can m (snd st k) depth) st.
Proof. destruct m; reflexivity. Qed.
Lemma do_zone can m k i depth (st : files * logs) z : nth_error (fl_zones (snd st k)) i = Some z ->
  do_call can (zone_call m k i depth) st = on_files (put_zone can m z depth) st.
Proof. intros E. destruct m; unfold zone_call, do_call, put_zone, bind, lift, zone_at; cbv beta zeta; rewrite E; reflexivity. Qed.
Lemma on_wrote can name b m d l : wrote can name b d (m d) ->
  if can (c_str name) then exists d', on_files m (d, l) = Ret (d', l) tt /\ d' (c_str name) = Some b /\ forall q, q <> c_str name -> d' q = d q
  else on_files m (d, l) = Thr (d, l) (ETec ("can not open file " ++ name)).
Proof.
  unfold wrote, on_files. cbn [fst snd]. destruct (can (c_str name)).
  - intros (d' & -> & H). exists d'. split; [reflexivity|exact H].
  - intros ->. reflexivity.
Qed.

Lemma put_log_wrote can m g depth d : 0 <= depth <= INT_MAX - 2 -> printable g ->
  exists t n, (n <= length (fl_zones g))%nat /\ printed (indent m depth) (indent2 m depth) (zown m) (fl_zones g) n (own m g) (Ok t) /\
    file_text_out (indent2 m depth) (indent m depth) (zown m) (fl_zones g) (own m g) = Ok t /\
    wrote can (name_in (fl_file g) (ext m)) (bytes_of (head_of m ++ t)) d (put_log can m g depth d).
Proof.
  intros Hd Hp. specialize (Hp m).
  pose proof (text_out (indent2 m depth) (indent m depth) (zown m) (own m g) (fl_zones g) Hp) as HT.
  assert (ET : exists t, file_text_out (indent2 m depth) (indent m depth) (zown m) (fl_zones g) (own m g) = Ok t)
    by (destruct HT as (c0 & cs & _ & _ & _ & E); eexists; exact E).
  destruct ET as [t ET]. rewrite ET in HT. exists t, (zcount (own m g)). split; [exact Hp|]. split; [exact HT|]. split; [exact ET|].
  destruct m; cbn [indent indent2 zown own head_of ext put_log] in *.
  - exact (put1 can (log_name g ".txt") t (write_echo g) d ET).
  - apply (put1 can (log_name g ".json") t). rewrite file_z_eq by assumption. exact ET.
  - apply (put2 can (log_name g ".xml") (xml_line ++ NL) t). rewrite file_z_eq by assumption. exact ET.
Qed.
Lemma put_zone_wrote can m z depth d : 0 <= depth ->
  wrote can (zname_in z (ext m)) (bytes_of (head_of m ++ lines (indent m depth) (zown m z))) d (put_zone can m z depth d).
Proof.
  intros Hd. destruct m; cbn [indent zown head_of ext put_zone].
  - rewrite <- zone_text_eq. apply (put0 can (zone_name z ".txt")).
  - apply (put1 can (zone_name z ".json")). rewrite zone_z_eq, zone_text_eq by assumption. reflexivity.
  - apply (put2 can (zone_name z ".xml") (xml_line ++ NL)). rewrite zone_z_eq, zone_text_eq by assumption. reflexivity.
Qed.
Lemma put_log_local can m g depth d : local (log_file m g) d (put_log can m g depth d).
Proof.
  destruct m; cbn [put_log]; [apply (local1 can (log_name g ".txt"))|apply (local1 can (log_name g ".json"))|apply (local2 can (log_name g ".xml"))].
Qed.
Lemma put_zone_local can m z depth d : local (zone_file m z) d (put_zone can m z depth d).
Proof.
  destruct m; cbn [put_zone]; [apply (local1 can (zone_name z ".txt") (Ok _))|apply (local1 can (zone_name z ".json"))|apply (local2 can (zone_name z ".xml"))].
Qed.

(** ** Programs *)

Definition outcome (o : out (files * logs) unit) : option (files * logs) := match o with Ret st _ | Thr st _ => Some st | Undef => None end.
Lemma do_calls_cons can c h st : do_calls ((can, c) :: h) st = match outcome (do_call can c st) with Some st' => do_calls h st' | None => None end.
Proof. cbn [do_calls]. destruct (do_call can c st); reflexivity. Qed.
Lemma do_calls_app h1 : forall h2 st, do_calls (h1 ++ h2) st = match do_calls h1 st with Some st' => do_calls h2 st' | None => None end.
Proof.
  induction h1 as [|[can c] h1 IH]; intros h2 st; [reflexivity|]. cbn [app]. rewrite !do_calls_cons. destruct (outcome _); [apply IH|reflexivity].
Qed.

Lemma on_outcome m st st' : outcome (on_files m st) = Some st' -> snd st' = snd st /\ forall p, local p (fst st) (m (fst st)) -> forall q, q <> p -> fst st' q = fst st q.
Proof.
  unfold on_files. destruct (m (fst st)) as [d u|d x|]; cbn [outcome]; intros E; try discriminate; injection E as <-; cbn [fst snd local]; auto.
Qed.
Lemma after_plt_other f s d q : q <> c_str (plt_name f) -> after_plt f s d q = d q.
Proof. intros H. unfold after_plt. destruct (disk s); [apply store_other, H|reflexivity]. Qed.

Lemma zone_out_of can m k i depth (st : files * logs) : nth_error (fl_zones (snd st k)) i = None -> do_call can (zone_call m k i depth) st = Undef.
Proof. intros E. destruct m; unfold zone_call, do_call, bind, lift, zone_at; cbv beta zeta; rewrite E; reflexivity. Qed.
Definition assigns (c : call) (k : nat) : Prop := match c with CPlt j _ _ | CLoad j _ => j = k | _ => False end.
(** A call that ends changes at most its file and its log. *)
Lemma step_frame can c st st' : outcome (do_call can c st) = Some st' ->
  (forall p, target (snd st) c <> Some p -> fst st' p = fst st p) /\ (forall k, ~ assigns c k -> snd st' k = snd st k).
Proof.
  assert (L : forall m k depth, outcome (do_call can (log_call m k depth) st) = Some st' ->
     (forall p, Some (log_file m (snd st k)) <> Some p -> fst st' p = fst st p) /\ snd st' = snd st).
  { intros m k depth E. rewrite do_log in E. apply on_outcome in E. destruct E as [E1 E2]. split; [|exact E1].
    intros p Hp. apply (E2 _ (put_log_local can m (snd st k) depth (fst st))). congruence. }
  assert (Zn : forall m k i depth, outcome (do_call can (zone_call m k i depth) st) = Some st' ->
     (forall p, option_map (zone_file m) (nth_error (fl_zones (snd st k)) i) <> Some p -> fst st' p = fst st p) /\ snd st' = snd st).
  { intros m k i depth E. destruct (nth_error (fl_zones (snd st k)) i) as [z|] eqn:Ez.
    - rewrite (do_zone _ _ _ _ _ _ _ Ez) in E. apply on_outcome in E. destruct E as [E1 E2]. split; [|exact E1].
      intros p Hp. apply (E2 _ (put_zone_local can m z depth (fst st))). cbn [option_map] in Hp. congruence.
    - rewrite (zone_out_of _ _ _ _ _ _ Ez) in E. discriminate E. }
  assert (P : forall Q : logs -> Prop, (snd st' = snd st) -> forall k, snd st' k = snd st k) by (intros Q -> k; reflexivity).
  destruct c as [k e f|k|k depth|k depth|k i|k i depth|k i depth|k path]; intros E.
  - cbn [do_call target assigns] in *. destruct (write_plt e f) as [[s g] u|[s g] x|]; cbn [outcome] in E; try discriminate E; injection E as <-; cbn [fst snd].
    all: split; [intros p Hp; apply after_plt_other; intros C; apply Hp; rewrite C; reflexivity|].
    all: intros j Hj; unfold set_log; destruct (Nat.eqb_spec j k); [congruence|reflexivity].
  - destruct (L Txt k 0 E) as [L1 L2]. split; [exact L1|intros j _; rewrite L2; reflexivity].
  - destruct (L Json k depth E) as [L1 L2]. split; [exact L1|intros j _; rewrite L2; reflexivity].
  - destruct (L Xml k depth E) as [L1 L2]. split; [exact L1|intros j _; rewrite L2; reflexivity].
  - destruct (Zn Txt k i 0 E) as [L1 L2]. split; [exact L1|intros j _; rewrite L2; reflexivity].
  - destruct (Zn Json k i depth E) as [L1 L2]. split; [exact L1|intros j _; rewrite L2; reflexivity].
  - destruct (Zn Xml k i depth E) as [L1 L2]. split; [exact L1|intros j _; rewrite L2; reflexivity].
  - cbn [do_call target assigns] in *. destruct (read_log (fst st) path) as [g|x|]; cbn [outcome] in E; try discriminate E; injection E as <-; cbn [fst snd]; [|auto].
    split; [reflexivity|]. intros j Hj. unfold set_log. destruct (Nat.eqb_spec j k); [congruence|reflexivity].
Qed.
Lemma spares_cons p can c h st : spares p ((can, c) :: h) st <->
  target (snd st) c <> Some p /\ match outcome (do_call can c st) with Some st' => spares p h st' | None => True end.
Proof. cbn [spares]. destruct (do_call can c st); reflexivity. Qed.
Lemma frame p h : forall st st', do_calls h st = Some st' -> spares p h st -> fst st' p = fst st p.
Proof.
  induction h as [|[can c] h IH]; intros st st' E HS; [injection E as <-; reflexivity|].
  rewrite do_calls_cons in E. rewrite spares_cons in HS. destruct (outcome (do_call can c st)) as [st1|] eqn:Eo; [|discriminate E].
  destruct HS as [H1 H2]. rewrite (IH _ _ E H2). apply (proj1 (step_frame _ _ _ _ Eo)). exact H1.
Qed.
Lemma frame_log k h : forall st st', do_calls h st = Some st' -> keeps k h -> snd st' k = snd st k.
Proof.
  induction h as [|[can c] h IH]; intros st st' E HS; [injection E as <-; reflexivity|].
  rewrite do_calls_cons in E. unfold keeps in HS. apply Forall_cons_iff in HS. destruct (outcome (do_call can c st)) as [st1|] eqn:Eo; [|discriminate E].
  destruct HS as [H1 H2]. rewrite (IH _ _ E H2). apply (proj2 (step_frame _ _ _ _ Eo)). cbn [snd] in H1. destruct c; cbn [assigns]; auto.
Qed.

Lemma reached_printable h d l : reached h d l -> forall k, printable (l k).
Proof.
  intros (Hf & d0 & E). assert (G : forall h st st', Forall (fun p => fair (snd p)) h -> do_calls h st = Some st' ->
    (forall k, printable (snd st k)) -> forall k, printable (snd st' k)).
  { clear. induction h as [|[can c] h IH]; intros st st' Hf E H; [injection E as <-; exact H|]. rewrite do_calls_cons in E.
    apply Forall_cons_iff in Hf. destruct Hf as [Hf1 Hf]. cbn [snd] in Hf1.
    destruct (outcome (do_call can c st)) as [st1|] eqn:Eo; [|discriminate E]. apply (IH st1 st' Hf E). clear E IH. intros j.
    destruct (step_frame _ _ _ _ Eo) as [_ F].
    assert (D : assigns c j \/ ~ assigns c j) by (destruct c; cbn [assigns]; try tauto; lia). destruct D as [D|D]; [|rewrite (F _ D); apply H].
    destruct c as [k e f|k|k depth|k depth|k i|k i depth|k i depth|k path]; cbn [assigns] in D; try contradiction; subst j; cbn [do_call] in Eo.
    - destruct Hf1 as [Hw Hs]. pose proof (printable_plt e f Hw Hs) as P.
      destruct (write_plt e f) as [[s g] u|[s g] x|]; cbn [outcome] in Eo; try discriminate Eo; injection Eo as <-; cbn [snd];
        unfold set_log; rewrite Nat.eqb_refl; exact P.
    - destruct (read_log (fst st) path) as [g|x|] eqn:Er; cbn [outcome] in Eo; try discriminate Eo; injection Eo as <-; [|apply H].
      cbn [snd]. unfold set_log. rewrite Nat.eqb_refl. apply (printable_read _ _ _ Er). }
  intros k. change (l k) with (snd (d, l) k). apply (G h _ _ Hf E). intros j. exact printable_none.
Qed.
