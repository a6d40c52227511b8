(** Programs follow the abstract machine: one call, any number of calls. *)

From Coq Require Import ZArith Ascii String List Bool Lia.
From Verif Require Import Base M_Flags M_Loop M_RS1 M_RS2 M_RS3 M_Bytes M_TecZone M_TecFile Spec_Tec Spec_Plt
  M_Heap M_PD1 M_PD2 M_PD3 M_World M_Read
  Spec Spec_Loop Spec_Array Spec_Hist Spec_Reach Spec_Read
  L_Base L_RS L_Range L_Loop L_Heap L_Lin L_Rep L_PD1 L_PD2 L_PD3 L_Kind L_Copy L_World L_ReadCall.
Import ListNotations.
Open Scope Z_scope.

Lemma sizes_inb_iff gs ss : sizes_inb gs ss = true <-> Forall2 size_in gs ss.
Proof.
  revert ss. induction gs as [|[[n i] p] gs IH]; intros [|s ss]; cbn [sizes_inb].
  - split; [constructor|reflexivity].
  - split; [discriminate|inversion 1].
  - split; [discriminate|inversion 1].
  - rewrite !andb_true_iff, IH, Z.ltb_lt, Z.leb_le. split.
    + intros [[? ?] ?]. constructor; [cbn; lia|assumption].
    + inversion 1 as [|? ? ? ? A B]; subst. cbn in A. tauto.
Qed.

Lemma place_of_iff vars name vv : place_of vars name = Some vv <-> first_at vars name vv.
Proof.
  split.
  - revert vv. induction vars as [|v vars IH]; intros vv; cbn [place_of]; [discriminate|].
    destruct (String.eqb_spec v name) as [->|N].
    + intros [= <-]. split; [reflexivity|]. intros i Hi. lia.
    + destruct (place_of vars name) as [j|]; [|discriminate]. intros [= <-]. destruct (IH j eq_refl) as [H1 H2].
      split; [exact H1|]. intros [|i] Hi; cbn [nth_error]; [congruence|]. apply H2. lia.
  - revert vv. induction vars as [|v vars IH]; intros [|vv] [H1 H2]; cbn [nth_error place_of] in *; try discriminate.
    + injection H1 as ->. now rewrite String.eqb_refl.
    + destruct (String.eqb_spec v name) as [->|N]; [destruct (H2 O); [lia|reflexivity]|].
      rewrite (IH vv); [reflexivity|]. split; [exact H1|]. intros i Hi. apply (H2 (S i)). lia.
Qed.

Lemma place_of_none vars name : place_of vars name = None <-> ~ In name vars.
Proof.
  induction vars as [|v vars IH]; cbn [place_of In]; [tauto|].
  destruct (String.eqb_spec v name) as [->|N]; [split; [discriminate|tauto]|].
  destruct (place_of vars name) as [j|]; cbn [option_map]; (split; intros H; [|]).
  - discriminate H.
  - assert (X : ~ In name vars) by tauto. apply IH in X. discriminate X.
  - intros [X|X]; [contradiction|]. now apply IH in X.
  - reflexivity.
Qed.

Section Sim.
Context {V : Type}.
Variable F : nat -> bool.
Implicit Types (m : mem V) (w : world V) (aw : aworld V).
Notation rel := (rel F).
Notation sim := (sim F).

Lemma rel_ticked w aw own lk : rel w aw own lk ->
  rel (mkWorld (mkMem (blocks (heap w)) (fails (heap w)) (S (tick (heap w)))) (objs w))
      (mkA (S (a_tick aw)) (a_leak aw) (arrs aw) : aworld V) own lk.
Proof.
  intros [R1 R2 R3 R4 R5 R6 R7 R8 R9 R10]. constructor; auto.
  cbn [heap tick a_tick]. now rewrite R1.
Qed.

Lemma sim_read_plt w aw own lk a (of_float of_double : bytes -> option V) fs root log zone name nn :
  rel w aw own lk -> legal_read_plt aw a of_float of_double fs root log zone name nn ->
  sim w aw (ReadPlt a of_float of_double fs root log zone name nn).
Proof.
  intros HR (Hz & Hn & Hlog & Hg). unfold L_World.sim, exists_arr in *. cbn [step astep]. unfold a_read_plt.
  destruct (afind aw a) as [[k x]|] eqn:Ea; [|contradiction].
  destruct (rel_kind _ _ _ _ _ _ _ _ HR Ea) as (o & Ho & HN & Hr & Hlt). rewrite Ho. destruct Hg as [Hx Hconv].
  pose proof (r_tick _ _ _ _ _ HR) as ET. pose proof (r_fails _ _ _ _ _ HR) as EF.
  pose proof (rep_size _ _ _ _ _ Hr) as Zs. rewrite <- Zs.
  destruct Hz as [Hz0 Hz1]. destruct Hn as [Hn0 Hn1].
  assert (REF : forall e, refusal fs root log zone name nn k (m_size o) (F (a_tick aw) = true) e ->
    m_read_plt true of_float of_double k fs root log zone name nn o (heap w, 0)
    = Thr (mkMem (blocks (heap w)) (fails (heap w)) (tick (heap w) + asked e), 0) e).
  { intros e He. eapply refused_at; eauto. now rewrite EF, ET. }
  assert (SAME : mkMem (blocks (heap w)) (fails (heap w)) (tick (heap w) + 0) = heap w) by (rewrite Nat.add_0_r; now destruct (heap w)).
  assert (SAMEW : mkWorld (heap w) (objs w) = w) by now destruct w.
  assert (RT := rel_ticked _ _ _ _ HR).
  unfold on_mem.
  destruct (Z.leb_spec (k_N k) nn) as [Hk|Hk].
  { rewrite (REF _ (no_component _ _ _ _ _ _ _ _ _ Hk)). cbn [asked]. rewrite SAME, SAMEW. do 3 eexists. split; [reflexivity|exact HR]. }
  destruct (nth_error (fl_zones log) (Z.to_nat zone)) as [z|] eqn:Ez.
  2:{ apply nth_error_None in Ez. rewrite (REF EZoneTooBig) by (apply no_zone; lia). cbn [asked]. rewrite SAME, SAMEW.
      do 3 eexists. split; [reflexivity|exact HR]. }
  assert (HL : located log zone nn k z) by (split; assumption).
  cbv zeta. destruct (sizes_inb (m_size o) (log_sizes k z)) eqn:Es; cbn [negb].
  2:{ rewrite (REF EFileSize). 2:{ apply wrong_size with (z := z); [assumption|]. intros X. apply sizes_inb_iff in X. congruence. }
      cbn [asked]. rewrite SAME, SAMEW. do 3 eexists. split; [reflexivity|exact HR]. }
  apply sizes_inb_iff in Es. assert (HS : sized log zone nn k (m_size o) z) by (split; assumption).
  destruct (place_of (f_vars (fl_file log)) name) as [vv|] eqn:Ev.
  2:{ apply place_of_none in Ev. rewrite (REF EVarNotFound) by (eapply no_name; eassumption).
      cbn [asked]. rewrite SAME, SAMEW. do 3 eexists. split; [reflexivity|exact HR]. }
  pose proof (proj1 (place_of_iff _ _ _) Ev) as Hv.
  assert (Hlen : length (zl_data z) = length (f_vars (fl_file log))).
  { unfold log_wf in Hlog. rewrite Forall_forall in Hlog. destruct (Hlog z) as [X _]; [eapply nth_error_In; eassumption|exact X]. }
  destruct (nth_error (zl_data z) vv) as [d|] eqn:Ed.
  2:{ exfalso. apply nth_error_None in Ed. destruct Hv as [Hv _]. assert (vv < length (f_vars (fl_file log)))%nat by (apply nth_error_Some; congruence). lia. }
  assert (HD : named log zone name nn k (m_size o) z d) by (split; [assumption|eauto]).
  destruct (fs (plt_path root log)) as [b|] eqn:Eb.
  2:{ rewrite (REF EOpen) by (eapply no_file; [eassumption|now left]). cbn [asked]. rewrite SAME, SAMEW.
      do 3 eexists. split; [reflexivity|exact HR]. }
  destruct (Z.ltb_spec (dl_pt d) 0) as [Hp|Hp].
  { rewrite (REF EOpen) by (eapply no_file; [eassumption|now right]). cbn [asked]. rewrite SAME, SAMEW.
    do 3 eexists. split; [reflexivity|exact HR]. }
  assert (HO : opened fs root log zone name nn k (m_size o) z d b) by (split; [assumption|split; assumption]).
  assert (T1 : (tick (heap w) + 1 = S (tick (heap w)))%nat) by lia.
  destruct (F (a_tick aw)) eqn:Es1.
  { rewrite (REF ENoMem) by (eapply no_memory; [eassumption|reflexivity]). cbn [asked fst snd]. rewrite T1.
    do 3 eexists. split; [reflexivity|exact RT]. }
  assert (NS : false <> true) by discriminate.
  destruct (Z.ltb_spec (Z.of_nat (length b)) (dl_pt d + product (log_sizes k z) * width (dl_type d))) as [Hl|Hl].
  { rewrite (REF ERead) by (eapply too_short; eassumption). cbn [asked fst snd]. rewrite T1.
    do 3 eexists. split; [reflexivity|exact RT]. }
  assert (HB : obtained fs root log zone name nn k (m_size o) (false = true) z d b)
    by (split; [assumption|split; assumption]).
  destruct ((dl_type d =? 1) || (dl_type d =? 2)) eqn:Et; cbn [negb].
  2:{ apply orb_false_iff in Et. destruct Et as [Et1 Et2]. apply Z.eqb_neq in Et1, Et2.
      rewrite (REF ETecType) by (eapply wrong_type; eassumption). cbn [asked fst snd]. rewrite T1.
      do 3 eexists. split; [reflexivity|exact RT]. }
  assert (Et' : dl_type d = 1 \/ dl_type d = 2).
  { apply orb_true_iff in Et. rewrite !Z.eqb_eq in Et. exact Et. }
  destruct (done_at true of_float of_double k (heap w) o x (own a) HN Hr Hx fs root log zone name nn 0 Hlog Hz0 Hn0 z d b)
    as (m' & gs & f & -> & E & Hsb & Hr').
  - split; [|assumption]. split; [assumption|]. split; [rewrite EF, ET, Es1; discriminate|assumption].
  - intros i Hi. eapply Hconv; eauto.
  - rewrite E. cbn [fst snd]. exists (mkWorld m' (objs w)), (set_own own a (own a)), lk. split; [reflexivity|].
    assert (Eo : objs w = upd (objs w) a (Some (k, o))) by (symmetry; apply upd_same; now apply find_nth).
    destruct Hsb as (S1 & S2 & S3 & S4). cbn [tick fails] in S2, S3. rewrite ET in S3. rewrite Eo. unfold with_arr. cbn [a_tick a_leak arrs].
    eapply rel_upd; eauto.
    + unfold entry_ok. split; [reflexivity|]. split; [assumption|]. exact Hr'.
    + intros c Hc _. rewrite S4; [reflexivity|]. intros [<-|[]]. apply Hc. eapply hd_own; exact Hr.
    + intros c Hc Hc'. contradiction.
Qed.

Lemma step_sim w aw own lk c : rel w aw own lk -> legal aw c -> sim w aw c.
Proof.
  intros HR Hg. destruct c.
  - eapply sim_new; eassumption.
  - eapply sim_new_sized; try eassumption; apply Hg.
  - eapply sim_alloc; eassumption.
  - eapply sim_realloc; eassumption.
  - eapply sim_clear; eassumption.
  - eapply sim_destroy; eassumption.
  - eapply sim_size; eassumption.
  - eapply sim_read; eassumption.
  - eapply sim_write; eassumption.
  - eapply sim_data_read; eassumption.
  - eapply sim_data_write; eassumption.
  - eapply sim_copy; eassumption.
  - eapply sim_copy_tag; eassumption.
  - eapply sim_copy_fl; eassumption.
  - eapply sim_copy_tag_fl; eassumption.
  - eapply sim_read_plt; eassumption.
Qed.

Lemma exec_sim h : forall w aw own lk,
  rel w aw own lk -> legal_run F aw h ->
  exists w' own' lk', exec true w h = Some (w', snd (aexec F aw h)) /\ rel w' (fst (aexec F aw h)) own' lk'.
Proof.
  induction h as [|c h IH]; intros w aw own lk HR Hg; cbn [exec aexec].
  - exists w, own, lk. split; [reflexivity|exact HR].
  - destruct Hg as [Hc Hg]. destruct (step_sim _ _ _ _ _ HR Hc) as (w1 & own1 & lk1 & -> & HR1).
    destruct (astep F aw c) as [aw1 r1]. cbn [fst snd] in *.
    destruct (IH _ _ _ _ HR1 Hg) as (w2 & own2 & lk2 & -> & HR2).
    destruct (aexec F aw1 h) as [aw2 rs]. cbn [fst snd] in *.
    exists w2, own2, lk2. split; [reflexivity|exact HR2].
Qed.

Lemma rel_start : rel (start F : world V) a_start (fun _ => []) [].
Proof.
  constructor; cbn; auto.
  - intros a. unfold find, afind. cbn. now rewrite !(proj2 (nth_error_None _ _)) by (cbn; lia).
  - intros ? ? ? [].
  - constructor.
  - intros b H. exfalso. apply H. unfold block. cbn. now destruct b.
Qed.

End Sim.
