(** What read_plt stored stays until a call disturbs it. *)

From Coq Require Import ZArith Ascii String List Bool Lia.
From Verif Require Import Base M_Flags M_Loop M_RS1 M_RS2 M_RS3 M_Bytes M_TecZone M_TecFile Spec_Tec Spec_Plt
  M_Heap M_PD1 M_PD2 M_PD3 M_World M_Read
  Spec Spec_Loop Spec_Array Spec_Hist Spec_Reach Spec_Read
  L_Base L_RS L_Range L_Loop L_Heap L_Lin L_Rep L_PD1 L_PD2 L_PD3 L_Kind L_Copy L_World L_ReadCall L_Sim L_Access L_Life L_Copies.
Import ListNotations.
Open Scope Z_scope.

Section Kept.
Context {V : Type}.
Implicit Types (w : world V) (aw : aworld V) (m : mem V).

Lemma read_kept F h1 h2 w1 aw1 a k o (of_float of_double : bytes -> option V) fs root log zone name nn z d b q fl :
  after F h1 w1 aw1 -> find w1 a = Some (k, o) ->
  legal_run F a_start (h1 ++ ReadPlt a of_float of_double fs root log zone name nn :: h2 ++ [Read a nn q fl]) ->
  readable fs root log zone name nn k (m_size o) (F (tick (heap w1)) = true) z d b ->
  flag_error 0 (k_locs k) fl = None -> in_box (corner (log_sizes k z)) (slot_of q fl) ->
  (forall c, In c h2 -> disturbs c a nn (slot_of q fl) = false) ->
  exists w rs v,
    exec true (start F) (h1 ++ ReadPlt a of_float of_double fs root log zone name nn :: h2 ++ [Read a nn q fl]) =
      Some (w, rs ++ [RVal (Some v)]) /\
    stored of_float of_double (dl_type d) b (dl_pt d) (rank (log_sizes k z) (slot_of q fl)) = Some v.
Proof.
  intros HA Hf HL HD HFl Hq Hdist.
  destruct (after_find _ _ _ _ _ _ _ HA Hf) as (x & own & lk & Ha & HN & Hr & HR).
  pose proof (r_tick _ _ _ _ _ HR) as ET. pose proof (rep_size _ _ _ _ _ Hr) as Zs.
  set (call := ReadPlt a of_float of_double fs root log zone name nn) in *.
  destruct (exec_sim F _ _ _ _ _ (rel_start F) HL) as (w & own' & lk' & E & _). exists w.
  change (call :: h2 ++ [Read a nn q fl]) with ((call :: h2) ++ [Read a nn q fl]) in *.
  rewrite app_assoc in *.
  destruct HA as (_ & Eaw & _).
  apply legal_run_app in HL. destruct HL as [HL [HLr _]].
  set (aw2 := fst (aexec F a_start (h1 ++ call :: h2))) in *.
  apply legal_run_app in HL. destruct HL as [HL1 [HL _]]. rewrite <- Eaw in HL.
  destruct HL as (_ & [Hn0 Hn1] & Hlog & Hg). unfold exists_arr in Hg. rewrite Ha in Hg. destruct Hg as [Hx Hconv].
  destruct HD as [[[[[[Hk Ez] HS] (vv & Hv & Ed)] [Eb Hp]] [Hns Hl]] Ht].
  apply place_of_iff in Hv.
  assert (Hsb := HS). apply sizes_inb_iff in Hsb.
  destruct (stored of_float of_double (dl_type d) b (dl_pt d) (rank (log_sizes k z) (slot_of q fl))) as [v|] eqn:Es.
  2:{ exfalso. revert Es. eapply Hconv; eauto. now apply rank_range. }
  exists (snd (aexec F a_start (h1 ++ call :: h2))), v. split; [|reflexivity].
  rewrite E, aexec_app. cbn [snd]. fold aw2. do 3 f_equal.
  destruct (rep_not_empty _ _ _ _ _ _ Hr Hx HS) as (gs & f & ->).
  cbn [a_shape] in Zs. rewrite Zs in *.
  assert (H1 : holds_val (fst (astep F aw1 call)) a k gs nn (slot_of q fl) v).
  { unfold call. cbn [astep]. unfold a_read_plt. rewrite Ha. cbv zeta. cbn [a_shape].
    rewrite (proj2 (Z.leb_gt _ _) Hk), Ez, Hsb, Hv, Ed, Eb. cbn [negb].
    rewrite (proj2 (Z.ltb_ge _ _) Hp).
    destruct (F (a_tick aw1)) eqn:EF; [exfalso; apply Hns; now rewrite ET|].
    rewrite (proj2 (Z.ltb_ge _ _) Hl).
    replace ((dl_type d =? 1) || (dl_type d =? 2)) with true by (symmetry; apply orb_true_iff; rewrite !Z.eqb_eq; exact Ht).
    cbn [negb fst]. eexists. split.
    - unfold with_arr. erewrite afind_put_same; [reflexivity|]. exact Ha.
    - cbv beta. rewrite Z.eqb_refl. cbn [andb]. apply in_boxb_iff in Hq. rewrite Hq. exact Es. }
  assert (H2 : holds_val aw2 a k gs nn (slot_of q fl) v).
  { unfold aw2. rewrite aexec_app. cbn [fst aexec]. rewrite <- Eaw.
    destruct (astep F aw1 call) as [aw1' r]. cbn [fst] in *.
    pose proof (undisturbed F h2 aw1' a k gs nn (slot_of q fl) v H1 Hdist) as H2. now destruct (aexec F aw1' h2). }
  destruct H2 as (f2 & Ha2 & Hv2). cbn [aexec astep]. rewrite Ha2. cbn [a_shape].
  cbn [legal] in HLr. unfold legal_access, exists_arr in HLr. rewrite Ha2 in HLr. destruct HLr as (_ & L2 & L3 & _).
  assert (Lg : length gs = length (k_locs k)) by apply Hr.
  assert (EE : access_error (k_N k) (k_locs k) gs nn q fl = None).
  { unfold access_error. rewrite (proj2 (Z.leb_gt _ _) Hk), HFl.
    apply index_error_none; auto. eapply corner_in; eauto. apply Hr. }
  rewrite EE. cbn [snd]. now rewrite Hv2.
Qed.
End Kept.
