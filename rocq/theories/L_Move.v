(** Saving and loading of many components. *)

From Coq Require Import ZArith Ascii String List Bool Lia.
From Verif Require Import Base M_Flags M_Loop M_RS1 M_RS2 M_RS3 M_Bytes M_TecZone M_TecFile Spec_Tec Spec_Plt Spec_Aux Spec_Xml L_ReadLog M_ReadXml L_XmlLog
  M_Heap M_PD1 M_PD2 M_PD3 M_World M_Read Spec Spec_Loop Spec_Array Spec_Hist Spec_Reach Spec_Read Spec_Move
  L_Base L_Heap L_Lin L_Rep L_Kind L_World L_Sim L_Access L_Life L_Copies L_ReadCall L_Read L_Round L_XmlRead L_ReadKept L_Restart.
Import ListNotations.
Open Scope list_scope.
Open Scope Z_scope.

Section Move.
Context {V1 V2 : Type}.
Variables (of_float of_double : bytes -> option V2) (F1 F2 : nat -> bool) (h1 : list (op V1)) (w1 : world V1) (aw1 : aworld V1).
Variables (wd : Z) (dec : bytes -> option V2) (enc : V1 -> bytes) (cast : V1 -> V2) (t : ctype).
Variables (e : env) (f : tfile) (s : M_TecFile.fs) (g : file_log) (u : unit) (fs : files) (root : string) (g' : file_log).
Hypothesis A1 : after F1 h1 w1 aw1.
Hypothesis Ht : t = CFloat /\ wd = 4 /\ dec = of_float \/ t = CDouble /\ wd = 8 /\ dec = of_double.
Hypothesis Hdec : forall bs, Z.of_nat (length bs) = wd -> dec bs <> None.
Hypothesis Hed : forall v, dec (enc v) = Some (cast v).
Hypothesis Hw : file_wf f.
Hypothesis Hps : plt_size f < 2 ^ 63.
Hypothesis Ew : write_plt e f = Ret (s, g) u.
Hypothesis Hfs : fs (plt_path root g) = disk s.
Hypothesis Hg : same_log g g'.

Definition load_of (m : move) : op V2 := ReadPlt (mv_to m) of_float of_double fs root g' (mv_zone m) (mv_name m) (mv_into m).

(** A load leaves no array half made. *)
Lemma load_healthy (aw : aworld V2) m x : healthy aw x -> healthy (fst (astep F2 aw (load_of m))) x.
Proof.
  intros H. unfold load_of. cbn [astep]. unfold a_read_plt. destruct (afind aw (mv_to m)) as [[k y]|] eqn:Ea; [|exact H].
  destruct (_ <=? _); [exact H|]. destruct (nth_error _ _) as [z|]; [|exact H]. cbv zeta.
  destruct (negb _); [exact H|]. destruct (place_of _ _) as [vv|]; [|exact H].
  destruct (nth_error _ _) as [d|]; [|exact H]. destruct (fs (plt_path root g')) as [b|]; [|exact H].
  destruct (_ <? _); [exact H|]. destruct (F2 _); [exact H|]. destruct (_ <? _); [exact H|]. destruct (negb _); [exact H|].
  destruct y as [|gs f0|gs nb]; [exact H| |exact H]. cbn [fst]. intros k' gs' nb' E. unfold with_arr in E.
  destruct (Nat.eq_dec x (mv_to m)) as [->|N].
  - erewrite afind_put_same in E; [discriminate E|exact Ea].
  - rewrite afind_put_other in E by auto. exact (H _ _ _ E).
Qed.

(** One load. *)
Lemma load_one h (w : world V2) aw m : after F2 h w aw -> saved w1 aw1 t wd enc f m -> takes w1 w aw m -> F2 (tick (heap w)) = false ->
  exists w', step true w (load_of m) = Some (w', RDone) /\ legal aw (load_of m) /\
    after F2 (h ++ [load_of m]) w' (fst (astep F2 aw (load_of m))) /\ tick (heap w') = S (tick (heap w)) /\
    all_moved w1 w w' aw cast [m].
Proof.
  intros A2 (k1 & o1 & mem & d & z & vv & H1 & Hf1 & Hn1 & Hc1 & Himg & Hd & Hzi & Hz & Htk & Hv & Hdv) (k1' & o1' & k2 & o2 & Hf1' & Hf2 & H2 & Hc2 & HK & HS) Hmem.
  rewrite Hf1 in Hf1'. injection Hf1' as <- <-.
  destruct (round_readable of_float of_double F1 h1 w1 aw1 _ k1 o1 _ k2 (m_size o2) (mv_into m) (F2 (tick (heap w)) = true)
    wd dec enc cast mem t d e f s g u _ z _ vv fs root A1 H1 Hf1 Hn1 Hc1 Hc2 HK HS Ht Hdec Hed Himg Hd Hw Hps (proj1 Hzi) Hz Htk
    Hv Hdv Ew Hfs ltac:(congruence)) as (zl & dl & b & Hlog & Hread & Hss & Hst & Hval).
  destruct (same_readable g g' _ _ _ _ _ _ _ _ _ _ _ Hg Hread) as (zl' & dl' & Hread' & Es & Ety & Ept).
  destruct (after_find _ _ _ _ _ _ _ A2 Hf2) as (x2 & own2 & lk2 & Ha2 & HN2 & Hr2 & HR2).
  assert (HL : legal aw (load_of m)).
  { unfold load_of. cbn [legal]. unfold legal_read_plt. split; [exact Hzi|]. split; [unfold in_uint; destruct HN2; unfold kind_ok in *; lia|].
    split; [eapply same_wf; eauto|]. unfold exists_arr. rewrite Ha2. split.
    { intros gs nb ->. eapply H2; eauto. }
    intros zz vv' d' b' i Ezz Evv Ed' Eb' _ _ _ Hi.
    destruct Hread' as [[[[[[_ Ez] _] (vv2 & Hv2 & Ed)] [Eb _]] _] _].
    rewrite Ez in Ezz. injection Ezz as <-. apply place_of_iff in Hv2. rewrite Hv2 in Evv. injection Evv as <-.
    rewrite Ed in Ed'. injection Ed' as <-. rewrite Eb in Eb'. injection Eb' as <-.
    rewrite Ety, Ept. apply Hst. now rewrite Es, Hss in Hi. }
  destruct (read_done true of_float of_double F2 h w aw _ k2 o2 A2 H2 Hf2 fs root g' (mv_zone m) (mv_name m) (mv_into m) 0
    (same_wf _ _ Hg Hlog) (proj1 Hzi) (proj1 Hc2) zl' dl' b Hread') as (w2 & E2 & Hob & Hbl & Hin & Hoth).
  { intros i Hi. rewrite Ety, Ept. apply Hst. now rewrite Es, Hss in Hi. }
  rewrite Es, Hss in Hin.
  assert (E : step true w (load_of m) = Some (w2, RDone)).
  { unfold load_of. cbn [step]. rewrite Hf2. unfold on_mem. rewrite E2. destruct w2 as [hp ob]. cbn [heap objs] in *. now subst ob. }
  destruct (after_step _ _ _ _ _ A2 HL) as (w' & E' & A').
  rewrite E in E'. injection E' as <- Er.
  exists w2. split; [exact E|]. split; [exact HL|]. split; [exact A'|]. split.
  - destruct (after_rel _ _ _ _ A') as (own & lk & HR'). rewrite (r_tick _ _ _ _ _ HR'), (r_tick _ _ _ _ _ HR2).
    rewrite (r_tick _ _ _ _ _ HR2) in Hmem. clear - Hread' Ha2 Hmem Hr2 H2. unfold load_of. cbn [astep]. unfold a_read_plt.
    destruct Hread' as [[[[[[Hk Ez] HS] (vv2 & Hv2 & Ed)] [Eb Hp]] [_ Hl]] Hty]. apply place_of_iff in Hv2.
    rewrite (rep_size _ _ _ _ _ Hr2) in HS. apply sizes_inb_iff in HS.
    rewrite Ha2, (proj2 (Z.leb_gt _ _) Hk), Ez. cbv zeta. rewrite HS. cbn [negb]. rewrite Hv2, Ed, Eb, (proj2 (Z.ltb_ge _ _) Hp), Hmem.
    rewrite (proj2 (Z.ltb_ge _ _) Hl).
    replace ((dl_type dl' =? 1) || (dl_type dl' =? 2)) with true by (symmetry; apply orb_true_iff; rewrite !Z.eqb_eq; exact Hty).
    cbn [negb]. destruct x2; reflexivity.
  - assert (HB : forall q, in_box (corner (inner (k_locs k1) (m_size o1))) q -> in_box (slot_box (m_size o2) (k_locs k2)) q).
    { assert (Hx : forall gs nb, x2 <> ABroken gs nb) by (intros gs nb ->; eapply H2; eauto).
      clear - Hr2 Hx HS. destruct (rep_not_empty _ _ _ _ _ _ Hr2 Hx HS) as (gs & f0 & ->).
      rewrite (rep_size _ _ _ _ _ Hr2) in *. cbn [a_shape] in *. pose proof Hr2 as ((HL & HSh & _) & _). intros q. now apply corner_in. }
    split; [exact Hob|]. split.
    + intros m0 k1' o1' k2' o2' q v [<-|[]] X1 X2 (k3 & o3 & X3 & Hq) Hrd.
      rewrite Hf1 in X1, X3. injection X1 as <- <-. injection X3 as <- <-. rewrite Hf2 in X2. injection X2 as <- <-.
      apply (Hin _ _ _ Hc2 (HB _ Hq)). rewrite Z.eqb_refl. apply in_boxb_iff in Hq as Hqb. rewrite Hqb. cbn [andb].
      rewrite Ety, Ept. symmetry. now apply Hval.
    + intros x k o n q v Hx Hh Hn Hq Hm. destruct (Nat.eq_dec x (mv_to m)) as [->|N].
      * rewrite Hf2 in Hx. injection Hx as <- <-. rewrite (Hin n q v Hn Hq).
        destruct (n =? mv_into m) eqn:En; [|reflexivity]. apply Z.eqb_eq in En. cbn [andb].
        destruct (in_boxb _ q) eqn:Eq; [|reflexivity]. apply in_boxb_iff in Eq. exfalso.
        eapply (Hm m); [now left|reflexivity|now symmetry|]. exists k1, o1. auto.
      * eapply Hoth; eauto.
Qed.

Lemma all_moved_cons (w w' w'' : world V2) aw aw' m ms :
  (forall x, healthy aw x -> healthy aw' x) ->
  takes w1 w aw m -> saved w1 aw1 t wd enc f m ->
  ~ In (mv_to m, mv_into m) (map (fun m => (mv_to m, mv_into m)) ms) ->
  all_moved w1 w w' aw cast [m] -> all_moved w1 w' w'' aw' cast ms -> all_moved w1 w w'' aw cast (m :: ms).
Proof.
  intros HH Htk Hsv Hnd (O1 & M1 & U1) (O2 & M2 & U2).
  assert (EF : forall x, find w' x = find w x) by (intros x; unfold find; now rewrite O1).
  split; [congruence|]. split.
  - intros m0 k1 o1 k2 o2 q v [<-|Hin] Hf1 Hf2 Hq Hrd.
    + assert (R : reads w' k2 o2 (mv_into m) q (Some (cast v))) by (eapply M1; eauto; now left).
      destruct Htk as (k1' & o1' & k2' & o2' & X1 & X2 & X3 & X4 & X5 & X6).
      rewrite Hf1 in X1. injection X1 as <- <-. rewrite Hf2 in X2. injection X2 as <- <-.
      assert (HB : in_box (slot_box (m_size o2) (k_locs k2)) q).
      { destruct R as (q0 & fl & p & [_ Ha] & <- & _). exact (slot_of_in _ _ _ _ Ha). }
      apply (U2 (mv_to m) k2 o2 (mv_into m) q (Some (cast v))); auto; [now rewrite EF|].
      intros m' Hm' E1 E2 _. apply Hnd. rewrite <- E1, <- E2. now apply in_map with (f := fun m => (mv_to m, mv_into m)).
    + eapply M2; eauto. now rewrite EF.
  - intros x k o n q v Hf Hh Hn Hq Hm. rewrite (U2 x k o n q v); auto; [|now rewrite EF|intros m' Hm'; apply Hm; now right].
    apply (U1 x k o n q v); auto. intros m' [<-|[]]. apply Hm. now left.
Qed.

Lemma loads ms : forall h (w : world V2) aw, after F2 h w aw ->
  Forall (saved w1 aw1 t wd enc f) ms -> Forall (takes w1 w aw) ms ->
  NoDup (map (fun m => (mv_to m, mv_into m)) ms) -> memory_for F2 w (length ms) ->
  exists w' aw', after F2 (h ++ map load_of ms) w' aw' /\ exec true w (map load_of ms) = Some (w', repeat RDone (length ms)) /\
    all_moved w1 w w' aw cast ms.
Proof.
  induction ms as [|m ms IH]; intros h w aw HA HS HT HN HM.
  - exists w, aw. cbn [map length repeat]. rewrite app_nil_r. split; [exact HA|]. split; [reflexivity|]. split; [reflexivity|]. split.
    + intros m ? ? ? ? ? ? [].
    + reflexivity.
  - apply NoDup_cons_iff in HN. destruct HN as [HN1 HN2].
    destruct (load_one h w aw m HA (Forall_inv HS) (Forall_inv HT)) as (w' & E & HL & A' & ET & Hmv).
    { apply HM. cbn [length]. lia. }
    destruct (IH _ _ _ A' (Forall_inv_tail HS)) as (w'' & aw'' & A'' & E'' & Hmv'').
    + pose proof (Forall_inv_tail HT) as HT'. rewrite Forall_forall in HT' |- *. intros m' Hm'.
      destruct (HT' m' Hm') as (k1 & o1 & k2 & o2 & X1 & X2 & X3 & X4). exists k1, o1, k2, o2. split; [exact X1|].
      split; [unfold find; rewrite (proj1 Hmv); exact X2|]. split; [now apply load_healthy|exact X4].
    + exact HN2.
    + intros i Hi. apply HM. cbn [length]. lia.
    + exists w'', aw''. cbn [map]. rewrite <- app_assoc in A''. split; [exact A''|]. split.
      * cbn [exec]. rewrite E, E''. reflexivity.
      * refine (all_moved_cons w w' w'' aw _ m ms _ (Forall_inv HT) (Forall_inv HS) HN1 Hmv Hmv''). intros x. now apply load_healthy.
Qed.
End Move.
