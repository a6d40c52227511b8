(** Checkpoint and restart: a program writes an array, another one reads the log and the data and goes on. *)

From Coq Require Import ZArith Ascii String List Bool Lia.
From Verif Require Import Base M_Flags M_Loop M_RS1 M_RS2 M_RS3 M_Bytes M_TecZone M_TecFile Spec_Tec Spec_Plt Spec_Aux Spec_Xml L_ReadLog M_ReadXml L_XmlLog
  M_Heap M_PD1 M_PD2 M_PD3 M_World M_Read Spec Spec_Loop Spec_Array Spec_Hist Spec_Reach Spec_Read
  L_Base L_Heap L_Lin L_Rep L_Kind L_World L_Sim L_Access L_Life L_Copies L_ReadCall L_Read L_Round L_XmlRead L_ReadKept.
Import ListNotations.
Open Scope list_scope.
Open Scope Z_scope.

Lemma Forall2_nth {A B} (P : A -> B -> Prop) l l' i x : Forall2 P l l' -> nth_error l i = Some x ->
  exists y, nth_error l' i = Some y /\ P x y.
Proof.
  intros H. revert i. induction H as [|a b l l' H1 H2 IH]; intros [|i]; cbn [nth_error]; try discriminate.
  - intros E. injection E as <-. eauto.
  - apply IH.
Qed.
Lemma Forall2_nth_r {A B} (P : A -> B -> Prop) l l' i y : Forall2 P l l' -> nth_error l' i = Some y ->
  exists x, nth_error l i = Some x /\ P x y.
Proof.
  intros H. revert i. induction H as [|a b l l' H1 H2 IH]; intros [|i]; cbn [nth_error]; try discriminate.
  - intros E. injection E as <-. eauto.
  - apply IH.
Qed.

(** ** The log read back serves as well as the log written *)

Lemma same_sizes k z z' : same_zone z z' -> log_sizes k z' = log_sizes k z.
Proof. intros (_ & _ & _ & _ & _ & _ & _ & _ & _ & _ & E & _). unfold log_sizes. now rewrite E. Qed.

Lemma same_path root g g' : same_log g g' -> plt_path root g' = plt_path root g.
Proof. intros (_ & E & _). unfold plt_path. now rewrite E. Qed.

Lemma same_wf g g' : same_log g g' -> log_wf g -> log_wf g'.
Proof.
  intros (_ & _ & _ & Ev & _ & _ & _ & _ & HZ) HW. unfold log_wf in *. rewrite Ev.
  revert HW. induction HZ as [|z z' l l' H HZ IH]; intros HW; constructor; inversion HW as [|? ? (H1 & H2 & H3) HW']; subst; [|now apply IH].
  destruct H as (_ & _ & _ & _ & _ & _ & _ & _ & _ & _ & Er & HD). rewrite Er.
  split; [rewrite <- H1; symmetry; eapply Forall2_len; exact HD|]. split; [|exact H3].
  clear - HD H2. revert H2. induction HD as [|d d' l l' (E1 & E2 & _) HD IH]; intros H2; constructor; inversion H2; subst; [|now apply IH].
  rewrite E1, E2. assumption.
Qed.

Lemma same_readable g g' fs root zone name nn k gs starved z d b :
  same_log g g' -> readable fs root g zone name nn k gs starved z d b ->
  exists z' d', readable fs root g' zone name nn k gs starved z' d' b /\
    log_sizes k z' = log_sizes k z /\ dl_type d' = dl_type d /\ dl_pt d' = dl_pt d.
Proof.
  intros HG [[[[[[Hk Ez] HS] (vv & Hv & Ed)] [Eb Hp]] [Hns Hl]] Ht].
  pose proof HG as (_ & _ & _ & Ev & _ & _ & _ & _ & HZ).
  destruct (Forall2_nth _ _ _ _ _ HZ Ez) as (z' & Ez' & Hz).
  pose proof (same_sizes k z z' Hz) as Es. pose proof (same_path root g g' HG) as Ep.
  destruct Hz as (_ & _ & _ & _ & _ & _ & _ & _ & _ & _ & _ & HD).
  destruct (Forall2_nth _ _ _ _ _ HD Ed) as (d' & Ed' & (E1 & _ & E3 & _)).
  exists z', d'. split; [|auto]. unfold readable, obtained, opened, named, sized, located. rewrite Es, Ep, Ev, E1, E3.
  split; [|exact Ht]. split; [|auto]. split; [|auto]. split; [auto|]. exists vv. auto.
Qed.

(** ** What the first program sees *)

Section First.
Context {V : Type}.

Lemma read_reads F h w aw a k o n q fl w' v : after F h w aw -> find w a = Some (k, o) ->
  legal aw (Read a n q fl : op V) -> step true w (Read a n q fl) = Some (w', RVal (Some v)) ->
  reads w k o n (slot_of q fl) (Some v).
Proof.
  intros HA Hf HL HE. destruct (after_find _ _ _ _ _ _ _ HA Hf) as (x & own & lk & Ha & HN & Hr & HR).
  destruct (step_sim F _ _ _ _ _ HR HL) as (w1 & own1 & lk1 & E & _). rewrite HE in E.
  cbn [legal] in HL. unfold legal_access, exists_arr in HL. rewrite Ha in HL. destruct HL as (Hn & L2 & L3 & Hi & HB).
  cbn [astep] in E. rewrite Ha in E.
  destruct x as [|gs f|gs nb]; [discriminate E| |].
  2:{ cbn [a_shape] in E. destruct (access_error _ _ _ _ _ _) eqn:EE; [discriminate E|]. now destruct HB. }
  cbn [a_shape] in E. destruct (access_error _ _ _ _ _ _) eqn:EE; [discriminate E|].
  injection E as _ E. eapply reads_rep; [exact HN|exact Hr|].
  assert (Lg : length gs = length (k_locs k)) by apply Hr.
  apply accepts_iff in EE; [|assumption..|destruct Hn; lia]. destruct EE as [H1 H2].
  split; [assumption|]. split; [now apply slot_of_in|assumption].
Qed.
End First.

(** ** The whole *)

Lemma restart {V1 V2} (of_float of_double : bytes -> option V2)
    F1 h1 (w1 : world V1) aw1 a1 k1 o1 n1 F2 h2 (w2 : world V2) aw2 a2 k2 o2 n2
    wd dec (enc : V1 -> bytes) (cast : V1 -> V2) mem t d e f s g u zi z name vv fs root depth xml log :
  after F1 h1 w1 aw1 -> healthy aw1 a1 -> find w1 a1 = Some (k1, o1) -> o_data o1 <> Null -> 0 <= n1 < k_N k1 ->
  after F2 h2 w2 aw2 -> healthy aw2 a2 -> find w2 a2 = Some (k2, o2) -> 0 <= n2 < k_N k2 ->
  length (k_locs k2) = length (k_locs k1) ->
  Forall2 size_in (m_size o2) (inner (k_locs k1) (m_size o1)) ->
  (t = CFloat /\ wd = 4 /\ dec = of_float \/ t = CDouble /\ wd = 8 /\ dec = of_double) ->
  (forall bs, Z.of_nat (length bs) = wd -> dec bs <> None) -> (forall v, dec (enc v) = Some (cast v)) ->
  image w1 k1 o1 n1 wd enc mem -> M_TecZone.data_of t (Some mem) = Ok d ->
  file_wf f -> plt_size f < 2 ^ 63 -> in_uint zi -> nth_error (f_zones f) (Z.to_nat zi) = Some z ->
  takes_interior (k_locs k1) (m_size o1) z ->
  first_at (f_vars f) name vv -> nth_error (z_data z) vv = Some d ->
  write_plt e f = Ret (s, g) u -> F2 (tick (heap w2)) = false ->
  calm e -> xml_safe f -> plain_text (e_begin e) ->
  fs (plt_path root g) = disk s -> xml_file g depth = Ok xml -> fs (c_str log) = Some (list_ascii_of_string xml) ->
  exists g', read_log fs log = Ok g' /\
    legal aw2 (ReadPlt a2 of_float of_double fs root g' zi name n2) /\
    forall h3 q1 fl1 w v q2 fl2,
      legal aw1 (Read a1 n1 q1 fl1) -> step true w1 (Read a1 n1 q1 fl1) = Some (w, RVal (Some v)) ->
      slot_of q2 fl2 = slot_of q1 fl1 -> in_box (corner (inner (k_locs k1) (m_size o1))) (slot_of q1 fl1) ->
      flag_error 0 (k_locs k2) fl2 = None ->
      legal_run F2 a_start (h2 ++ ReadPlt a2 of_float of_double fs root g' zi name n2 :: h3 ++ [Read a2 n2 q2 fl2]) ->
      (forall c, In c h3 -> disturbs c a2 n2 (slot_of q2 fl2) = false) ->
      exists w' rs,
        exec true (start F2) (h2 ++ ReadPlt a2 of_float of_double fs root g' zi name n2 :: h3 ++ [Read a2 n2 q2 fl2]) =
          Some (w', rs ++ [RVal (Some (cast v))]).
Proof.
  intros A1 H1 Hf1 Hn1 Hc1 A2 H2 Hf2 Hc2 HK HS Ht Hdec Hed Himg Hd Hw Hps Hzi Hz Htk Hv Hdv Ew Hmem Hc Hx Hb Hfs Ex Hl.
  destruct (log_round_trip e f s g u depth Hw Hps Ew Hc Hx Hb) as (x & g' & Ex' & Hg & HR).
  assert (x = xml) by congruence. subst x. specialize (HR fs log Hl).
  destruct (round_readable of_float of_double F1 h1 w1 aw1 a1 k1 o1 n1 k2 (m_size o2) n2 (F2 (tick (heap w2)) = true)
    wd dec enc cast mem t d e f s g u zi z name vv fs root A1 H1 Hf1 Hn1 Hc1 Hc2 HK HS Ht Hdec Hed Himg Hd Hw Hps (proj1 Hzi) Hz Htk
    Hv Hdv Ew Hfs ltac:(congruence)) as (zl & dl & b & Hlog & Hread & Hss & Hst & Hval).
  destruct (same_readable g g' _ _ _ _ _ _ _ _ _ _ _ Hg Hread) as (zl' & dl' & Hread' & Es & Ety & Ept).
  exists g'. split; [exact HR|]. split.
  - destruct (after_find _ _ _ _ _ _ _ A2 Hf2) as (x2 & own2 & lk2 & Ha2 & HN2 & Hr2 & _).
    cbn [legal]. unfold legal_read_plt. split; [exact Hzi|]. split; [unfold in_uint; destruct HN2; unfold kind_ok in *; lia|].
    split; [eapply same_wf; eauto|]. unfold exists_arr. rewrite Ha2. split.
    { intros gs nb ->. eapply H2; eauto. }
    intros zz vv' d' b' i Ezz Evv Ed' Eb' _ _ _ Hi.
    destruct Hread' as [[[[[[_ Ez] _] (vv2 & Hv2 & Ed)] [Eb _]] _] _].
    rewrite Ez in Ezz. injection Ezz as <-. apply place_of_iff in Hv2. rewrite Hv2 in Evv. injection Evv as <-.
    rewrite Ed in Ed'. injection Ed' as <-. rewrite Eb in Eb'. injection Eb' as <-.
    rewrite Ety, Ept. apply Hst. now rewrite Es, Hss in Hi.
  - intros h3 q1 fl1 w v q2 fl2 HL1 E1 Eq Hq Hfl HL HD.
    pose proof (read_reads _ _ _ _ _ _ _ _ _ _ _ _ A1 Hf1 HL1 E1) as Hrd.
    destruct (read_kept F2 h2 h3 w2 aw2 a2 k2 o2 of_float of_double fs root g' zi name n2 zl' dl' b q2 fl2 A2 Hf2 HL Hread' Hfl)
      as (w' & rs & v' & E & Ev').
    { rewrite Es, Hss, Eq. exact Hq. } { exact HD. }
    rewrite Ety, Ept, Es, Hss, Eq, (Hval _ _ Hq Hrd) in Ev'. injection Ev' as <-. eauto.
Qed.

(** The call of read_plt leaves every array in place. *)
Lemma read_plt_alive {V} F (aw : aworld V) a of_float of_double fs root log zone name nn k gs f :
  afind aw a = Some (k, ALive gs f) ->
  exists f', afind (fst (astep F aw (ReadPlt a of_float of_double fs root log zone name nn))) a = Some (k, ALive gs f').
Proof.
  intros Ha. cbn [astep]. unfold a_read_plt. rewrite Ha. cbv zeta.
  destruct (_ <=? _); [eauto|]. destruct (nth_error _ _) as [z|]; [|eauto].
  destruct (negb _); [eauto|]. destruct (place_of _ _) as [vv|]; [|eauto].
  destruct (nth_error _ _) as [d|]; [|eauto]. destruct (fs _) as [b|]; [|eauto].
  destruct (_ <? _); [eauto|]. destruct (F _); [exists f; exact Ha|]. destruct (_ <? _); [exists f; exact Ha|]. destruct (negb _); [exists f; exact Ha|].
  cbn [fst]. eexists. unfold with_arr. erewrite afind_put_same; [reflexivity|]. exact Ha.
Qed.
