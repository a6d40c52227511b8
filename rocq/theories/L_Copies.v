(** Copies in reachable states. *)

From Coq Require Import ZArith List Bool Lia.
From Verif Require Import Base M_Flags M_Loop M_RS1 M_RS2 M_RS3 M_Heap M_PD1 M_PD2 M_PD3 M_World
  Spec Spec_Loop Spec_Array Spec_Hist Spec_Reach
  L_Base L_RS L_Range L_Loop L_Heap L_Lin L_Rep L_PD1 L_PD2 L_PD3 L_Kind L_Copy L_World L_Access L_Life.
Import ListNotations.
Open Scope Z_scope.

Section Copies.
Context {V : Type}.
Implicit Types (w : world V) (aw : aworld V) (h : list (op V)).

Lemma reads_rep w k o gs f bs n q v :
  kok k -> rep k (heap w) o (ALive gs f) bs ->
  (reads w k o n q v <-> 0 <= n < k_N k /\ in_box (slot_box gs (k_locs k)) q /\ v = f n q).
Proof.
  intros HN Hr. pose proof (rep_size _ _ _ _ _ Hr) as Hs. cbn [a_shape] in Hs.
  pose proof Hr as (Sa & R2 & R3 & R4). destruct Sa as (SL & SF & SV). split.
  - intros (x & fl & p & Hacc & <- & E & Ef). rewrite Hs in Hacc. pose proof Hacc as [Hn Hok].
    pose proof (dims_ok_lengths _ _ _ _ Hok) as (L1 & L2 & L3).
    pose proof (slot_of_in _ _ _ _ Hok) as Hb. split; [assumption|]. split; [assumption|].
    rewrite (at_live k (heap w) o gs f bs) in E by (assumption || lia || (eapply dims_ok_int; eassumption)).
    rewrite (proj1 (accepts_iff k gs n x fl L1 L2 L3 (proj1 Hn)) Hacc) in E. injection E as <-.
    rewrite (fetch_ok _ _ (sbox k gs) (k_N k) f) in Ef by assumption. now injection Ef as <-.
  - intros (Hn & Hq & ->). destruct (slot_of_surj (k_locs k) gs q) as (x & fl & Hok & <-); [assumption|assumption|].
    destruct (rep_access k (heap w) o gs f bs n x fl HN Hr (conj Hn Hok)) as (p & E1 & _).
    pose proof (dims_ok_lengths _ _ _ _ Hok) as (L1 & L2 & L3).
    exists x, fl, p. rewrite Hs. split; [split; assumption|]. split; [reflexivity|]. split; [assumption|].
    rewrite (at_live k (heap w) o gs f bs) in E1 by (assumption || lia || (eapply dims_ok_int; eassumption)).
    rewrite (proj1 (accepts_iff k gs n x fl L1 L2 L3 (proj1 Hn)) (conj Hn Hok)) in E1. injection E1 as <-.
    apply fetch_ok with (N := k_N k); auto.
Qed.

Lemma reads_empty w k o bs n q v : rep k (heap w) o (AEmpty : arr V) bs -> ~ reads w k o n q v.
Proof.
  intros Hr (x & fl & p & [_ Hok] & _ & E & _). apply dims_ok_lengths in Hok. destruct Hok as (_ & L2 & L3).
  rewrite at_empty in E by (assumption || apply Hr). discriminate.
Qed.

Lemma copy_fits_lengths (R r : box) (A a : list Z) : copy_fits R r A a -> length r = length R /\ length A = length R /\ length a = length R.
Proof.
  revert r A a. induction R as [|? R IH]; intros [|? r] [|? A] [|? b] H; cbn in H; try contradiction; [auto|].
  destruct H as [_ H]. apply IH in H. cbn. lia.
Qed.

(** A copy in closed form. *)
Lemma copy_step_eq F h w aw c k d s od os R r A a :
  after F h w aw -> find w d = Some (k, od) -> find w s = Some (k, os) -> copies c k d s od os R r A a ->
  length R = length (k_locs k) -> copy_fits R r A a ->
  step true w c =
  match copy_error (k_locs k) (Nat.eqb d s) R r A a with
  | Some e => Some (w, RExn e)
  | None => on_mem w (copy_run k od os (copy_box (k_locs k) R r A a) (vsub A a)) (fun _ => RDone)
  end.
Proof.
  intros HA Hd Hs Hc HL Hfit.
  destruct (after_find _ _ _ _ _ _ _ HA Hd) as (x & own & lk & Ad & HN & Hrd & HR).
  destruct (after_find _ _ _ _ _ _ _ HA Hs) as (y & own' & lk' & As & _ & Hrs & _).
  pose proof (rep_class _ _ _ _ _ Hrd) as Cd. pose proof (rep_class _ _ _ _ _ Hrs) as Cs.
  pose proof (rep_shape_ok _ _ _ _ _ Hrd) as Fd. pose proof (rep_shape_ok _ _ _ _ _ Hrs) as Fs.
  pose proof (m_size_length k od Cd) as Ld. pose proof (m_size_length k os Cs) as Ls.
  destruct (copy_fits_lengths _ _ _ _ Hfit) as (LR & LA & La).
  assert (X : forall f : kind -> obj -> obj -> bool -> M (mem V) unit,
    f k od os (Nat.eqb d s) (heap w) =
      match copy_error (k_locs k) (Nat.eqb d s) R r A a with
      | Some e => Thr (heap w) e
      | None => copy_run k od os (copy_box (k_locs k) R r A a) (vsub A a) (heap w)
      end ->
    on_two w d s f =
      match copy_error (k_locs k) (Nat.eqb d s) R r A a with
      | Some e => Some (w, RExn e)
      | None => on_mem w (copy_run k od os (copy_box (k_locs k) R r A a) (vsub A a)) (fun _ => RDone)
      end).
  { intros f E. unfold on_two. rewrite Hd, Hs, kind_eqb_refl. unfold on_mem. rewrite E.
    destruct (copy_error _ _ _ _ _ _); [now destruct w|reflexivity]. }
  destruct c; cbn [copies] in Hc; try contradiction; cbn [step].
  - destruct Hc as (-> & -> & -> & -> & <- & <- & HI). rewrite !range_box_length in *. apply X.
    apply m_copy_eq; auto.
  - destruct Hc as (-> & -> & -> & -> & <- & <- & L1 & L2). apply X.
    rewrite m_copy_tag_eq by (assumption || congruence). rewrite <- !tag_range_box in *. apply m_copy_eq; auto.
    rewrite tag_range_length; congruence.
  - destruct Hc as (-> & -> & -> & -> & -> & -> & HI & L3). apply X. destruct (copy_fits_edges _ _ _ _ Hfit).
    rewrite !range_box_length in *. rewrite m_copy_fl_eq by (assumption || congruence). apply m_copy_eq; auto.
  - destruct Hc as (-> & -> & -> & -> & -> & -> & L1 & L2 & L3). apply X.
    rewrite m_copy_tag_fl_eq by (assumption || congruence). rewrite <- !tag_range_box in *. apply m_copy_eq; auto.
    rewrite tag_range_length; congruence.
Qed.

Lemma in_box_length B q : in_box B q -> length B = length q.
Proof. unfold in_box. induction 1; cbn; congruence. Qed.

Lemma in_own_hd (bs : list nat) : bs <> [] -> In (hd O bs) bs.
Proof. destruct bs; [congruence|]. intros _. now left. Qed.

(** The effect of a copy whose zones are inside the arrays. *)
Lemma copy_effect F h w aw c k d s od os R r A a :
  after F h w aw -> healthy aw d -> healthy aw s ->
  find w d = Some (k, od) -> find w s = Some (k, os) -> o_data od <> Null -> o_data os <> Null ->
  copies c k d s od os R r A a -> length R = length (k_locs k) -> copy_fits R r A a ->
  (copy_error (k_locs k) (Nat.eqb d s) R r A a = None -> copy_inside k od os R r A a) ->
  match copy_error (k_locs k) (Nat.eqb d s) R r A a with
  | Some e => step true w c = Some (w, RExn e)
  | None => exists w', step true w c = Some (w', RDone) /\ copied aw w w' k d od os R r A a
  end.
Proof.
  intros HA Hhd Hhs Hd Hs Dd Ds Hc HL Hfit Hin.
  rewrite (copy_step_eq F h w aw c k d s od os R r A a HA Hd Hs Hc HL Hfit).
  destruct (after_find _ _ _ _ _ _ _ HA Hd) as (x & own & lk & Ad & HN & Hrd & HR).
  assert (X : exists y, afind aw s = Some (k, y) /\ rep k (heap w) os y (own s)).
  { pose proof (r_arr _ _ _ _ _ HR s) as Ha. rewrite Hs in Ha. unfold entry_ok in Ha.
    destruct (afind aw s) as [[k' y]|]; [|contradiction]. destruct Ha as (<- & _ & Hr). eauto. }
  destruct X as (y & As & Hrs).
  destruct x as [|gd fd|gd nb]; [destruct Dd; eapply data_null; eauto| |destruct (Hhd _ _ _ Ad)].
  destruct y as [|gs fs|gs nb]; [destruct Ds; eapply data_null; eauto| |destruct (Hhs _ _ _ As)].
  pose proof (rep_size _ _ _ _ _ Hrd) as Zd. pose proof (rep_size _ _ _ _ _ Hrs) as Zs. cbn [a_shape] in Zd, Zs.
  destruct (copy_error (k_locs k) (d =? s)%nat R r A a) as [e|] eqn:Ee; [reflexivity|].
  specialize (Hin eq_refl). unfold copy_inside in Hin. rewrite Zd, Zs in Hin.
  set (B := copy_box (k_locs k) R r A a) in *.
  pose proof Hrd as (D1 & D2 & D3 & D4). pose proof Hrs as (S1 & S2 & S3 & S4).
  pose proof (rep_nodup _ _ _ _ _ Hrd) as Hnd. pose proof (hd_own _ _ _ _ _ _ Hrd) as Hod.
  pose proof (hd_own _ _ _ _ _ _ Hrs) as Hos.
  assert (Hdd : ~ In (hd O (own d)) (tl (own d))).
  { destruct (own d) as [|b0 bs]; [contradiction|]. inversion Hnd. assumption. }
  assert (Hds : ~ In (hd O (own d)) (tl (own s))).
  { intros X. assert (In (hd O (own d)) (own s)) by (destruct (own s); [contradiction|now right]).
    assert (d = s) by (eapply (r_disj _ _ _ _ _ HR); eassumption). subst s. contradiction. }
  destruct (copy_run_ok k od os gd gs (own d) (own s) fd fs B (vsub A a) (heap w)) as (m' & E & Hsb & Hbl & Hh); auto.
  { intros n q n' q' Hn Hn' Hq Hq' E. injection E as E1 E2.
    assert (d = s). { eapply (r_disj _ _ _ _ _ HR); [exact Hod|]. rewrite E1. exact Hos. } subst s.
    rewrite Ad in As. injection As as <- <-.
    destruct (Hin q Hq) as [G1 G2]. destruct (Hin q' Hq') as [G3 G4].
    apply lin_inj in E2; try assumption. destruct E2 as [_ E2].
    rewrite Nat.eqb_refl in Ee.
    apply (guard_sound (k_locs k) R r A a q q' HL Hfit Ee Hq Hq'). now symmetry. }
  exists (mkWorld m' (objs w)). unfold on_mem. rewrite E. split; [reflexivity|].
  pose proof Hsb as (T1 & T2 & T3 & T4).
  assert (Hr' : rep k m' od (ALive gd (fun n q => if in_boxb B q then fs n (vsub q (vsub A a)) else fd n q)) (own d)).
  { split; [assumption|]. split; [assumption|]. split; [|exact Hh]. eapply liv_frame; [| |exact D3].
    - intros b Hb. apply T4. intros [<-|[]]. contradiction.
    - intros len. apply Hbl. }
  split; [reflexivity|]. split; [|split].
  - intros b. destruct (Nat.eq_dec b (hd O (own d))) as [->|N].
    + assert (X : block (heap w) (hd O (own d)) <> None) by exact (rep_live _ _ _ _ _ _ Hrd Hod).
      assert (X' : block m' (hd O (own d)) <> None) by exact (rep_live _ _ _ _ _ _ Hr' Hod).
      cbn [heap]. split; auto.
    + cbn [heap]. rewrite T4; [reflexivity|]. intros [X|[]]. congruence.
  - intros n q v Hn Hq. rewrite Zd in Hq.
    pose proof (reads_rep (mkWorld m' (objs w)) k od gd _ (own d) n q v HN Hr') as X0.
    pose proof (reads_rep w k od gd fd (own d) n q v HN Hrd) as X1.
    pose proof (reads_rep w k os gs fs (own s) n (partner A a q) v HN Hrs) as X2.
    cbv beta in X0. fold B. destruct (in_boxb B q) eqn:Eb.
    + apply in_boxb_iff in Eb. destruct (Hin q Eb) as [_ Hp]. unfold partner in *. clear - X0 X2 Hp Hn Hq. tauto.
    + clear - X0 X1. tauto.
  - intros x k' o n q v Hx Hxh Hxd.
    assert (Eb : forall b, In b (own x) -> block m' b = block (heap w) b).
    { intros b Hb. apply T4. intros [X|[]]. subst b. apply Hxd. eapply (r_disj _ _ _ _ _ HR); eassumption. }
    pose proof (r_arr _ _ _ _ _ HR x) as Ha. rewrite Hx in Ha. unfold entry_ok in Ha.
    destruct (afind aw x) as [[k1 z]|] eqn:Ax; [|contradiction]. destruct Ha as (<- & HN' & Hr).
    assert (Hrx : rep k' m' o z (own x)) by (eapply rep_frame; eassumption).
    destruct z as [|g f|g nb].
    + split; intros X; exfalso; [eapply (reads_empty (mkWorld m' (objs w)))|eapply (reads_empty w)]; eassumption.
    + pose proof (reads_rep (mkWorld m' (objs w)) k' o g f (own x) n q v HN' Hrx) as X0.
      pose proof (reads_rep w k' o g f (own x) n q v HN' Hr) as X1. clear - X0 X1. tauto.
    + destruct (Hxh _ _ _ Ax).
Qed.

(** ** Copies by tags *)

Lemma region_in g t : dim_fits g -> let '(n, i, p) := g in - n <= fst (region g t) /\ snd (region g t) <= i + p.
Proof. destruct g as [[n i] p]. unfold dim_fits. intros H. destruct t; cbn [region fst snd]; lia. Qed.

Lemma copy_in_slots ls gd gs R r A a q :
  Forall shape_ok gd -> Forall shape_ok gs -> length gd = length ls -> length gs = length ls ->
  length R = length ls -> length r = length ls -> length A = length ls -> length a = length ls ->
  in_box (copy_box ls (regions gd R) (regions gs r) A a) q ->
  in_box (slot_box gd ls) q /\ in_box (slot_box gs ls) (partner A a q).
Proof.
  revert gd gs R r A a q.
  induction ls as [|l ls IH]; intros [|g gd] [|g' gs] [|t R] [|t' r] [|x A] [|y b] q Hg Hg' L1 L2 L3 L4 L5 L6 Hq;
    try discriminate.
  - inversion Hq; subst. split; constructor.
  - inversion Hg as [|? ? Hg1 Hg2]; inversion Hg' as [|? ? Hg1' Hg2']; subst.
    injection L1 as L1. injection L2 as L2. injection L3 as L3. injection L4 as L4. injection L5 as L5. injection L6 as L6.
    unfold copy_box, widen_high, caps, shift_box, vsub, regions in Hq. cbn [combine map fst snd] in Hq.
    apply in_box_cons in Hq. destruct Hq as (z & q1 & -> & Hz & Hq).
    destruct (IH gd gs R r A b q1 Hg2 Hg2' L1 L2 L3 L4 L5 L6 Hq) as [I1 I2].
    pose proof (region_in g t (shape_ok_fits _ Hg1)) as F. pose proof (region_in g' t' (shape_ok_fits _ Hg1')) as F'.
    destruct g as [[n i] p]. destruct g' as [[n' i'] p']. unfold cap in Hz. cbn [fst snd] in Hz.
    unfold slot_box, partner, vsub. cbn [combine map]. split; apply in_box_cons.
    + exists z, q1. split; [reflexivity|]. cbn [slots fst snd]. split; [lia|exact I1].
    + eexists _, _. split; [reflexivity|]. cbn [slots fst snd]. split; [lia|exact I2].
Qed.

(** An array without data has empty regions. *)
Lemma empty_copy_box ls gd gs R r A a :
  gd = map (fun _ => (0, 0, 0)) ls \/ gs = map (fun _ => (0, 0, 0)) ls ->
  length gd = length ls -> length gs = length ls ->
  length R = length ls -> length r = length ls -> length A = length ls -> length a = length ls ->
  In center ls ->
  forall q, ~ in_box (copy_box ls (regions gd R) (regions gs r) A a) q.
Proof.
  revert gd gs R r A a.
  induction ls as [|l ls IH]; intros [|g gd] [|g' gs] [|t R] [|t' r] [|x A] [|y b] He L1 L2 L3 L4 L5 L6 Hc q Hq;
    try discriminate; [destruct Hc|].
  injection L1 as L1. injection L2 as L2. injection L3 as L3. injection L4 as L4. injection L5 as L5. injection L6 as L6.
  unfold copy_box, widen_high, caps, shift_box, vsub, regions in Hq. cbn [combine map fst snd] in Hq.
  apply in_box_cons in Hq. destruct Hq as (z & q1 & -> & Hz & Hq).
  destruct Hc as [->|Hc].
  - unfold cap in Hz. cbn [fst snd loc_val] in Hz. destruct He as [He|He]; cbn [map] in He; injection He as -> _.
    + destruct t; cbn [region fst snd] in Hz; lia.
    + destruct t'; cbn [region fst snd] in Hz; lia.
  - assert (He' : gd = map (fun _ => (0, 0, 0)) ls \/ gs = map (fun _ => (0, 0, 0)) ls)
      by (destruct He as [He|He]; cbn [map] in He; injection He as _ He; auto).
    exact (IH gd gs R r A b He' L1 L2 L3 L4 L5 L6 Hc q1 Hq).
Qed.

Lemma both_empty (ls : list loc) R r A a :
  ls <> [] -> length R = length ls -> length r = length ls -> length A = length ls -> length a = length ls ->
  let gs := map (fun _ => (0, 0, 0)) ls in
  meetsb (regions gs R) (shift_box (vsub A a) (regions gs r)) = false.
Proof.
  destruct ls as [|l ls]; [congruence|]. destruct R as [|t R], r as [|t' r], A as [|x A], a as [|y b]; try discriminate.
  intros _ _ _ _ _. cbn [map].
  unfold regions, shift_box, vsub, meetsb. cbn [combine map forallb].
  assert (X : forall t, region (0, 0, 0) t = (0, 0)) by (intros []; reflexivity). rewrite !X. unfold meetb. cbn [fst snd].
  destruct (0 <? 0 + (x - y)) eqn:E1, (0 + (x - y) <? 0) eqn:E2; zcmp; try reflexivity; lia.
Qed.

Lemma copied_nothing F h w aw k d od os R r A a :
  after F h w aw -> find w d = Some (k, od) ->
  (forall q, ~ in_box (copy_box (k_locs k) R r A a) q) -> copied aw w w k d od os R r A a.
Proof.
  intros HA Hd H. split; [reflexivity|]. split; [reflexivity|]. split; [|reflexivity].
  intros n q v _ _. destruct (in_boxb _ q) eqn:E; [|reflexivity]. apply in_boxb_iff in E. destruct (H q E).
Qed.

Lemma tag_copy_safe F h w aw c k d s od os R r A a :
  after F h w aw -> healthy aw d -> healthy aw s ->
  find w d = Some (k, od) -> find w s = Some (k, os) ->
  copies c k d s od os R r A a -> by_tags c -> copy_fits R r A a ->
  (o_data od <> Null <-> o_data os <> Null) \/ In center (k_locs k) ->
  match copy_error (k_locs k) (Nat.eqb d s) R r A a with
  | Some e => step true w c = Some (w, RExn e)
  | None => exists w', step true w c = Some (w', RDone) /\ copied aw w w' k d od os R r A a
  end.
Proof.
  intros HA Hhd Hhs Hd Hs Hc Ht Hfit Hg.
  destruct (after_find _ _ _ _ _ _ _ HA Hd) as (x & own & lk & Ad & HN & Hrd & HR).
  destruct (after_find _ _ _ _ _ _ _ HA Hs) as (y & own' & lk' & As & _ & Hrs & _).
  pose proof (rep_class _ _ _ _ _ Hrd) as Cd. pose proof (rep_class _ _ _ _ _ Hrs) as Cs.
  pose proof (rep_shape_ok _ _ _ _ _ Hrd) as Fd. pose proof (rep_shape_ok _ _ _ _ _ Hrs) as Fs.
  pose proof (m_size_length k od Cd) as Ld. pose proof (m_size_length k os Cs) as Ls.
  assert (X : exists R' r', R = regions (m_size od) R' /\ r = regions (m_size os) r' /\
                            length R' = length (k_locs k) /\ length r' = length (k_locs k)).
  { destruct c; cbn [copies by_tags] in *; try contradiction.
    - destruct Hc as (_ & _ & ? & ? & _ & _ & ? & ?). eauto 8.
    - destruct Hc as (_ & _ & ? & ? & _ & _ & ? & ? & _). eauto 8. }
  destruct X as (R' & r' & -> & -> & LR & Lr).
  assert (HL : length (regions (m_size od) R') = length (k_locs k))
    by (unfold regions; rewrite map_length, combine_length; lia).
  destruct (copy_fits_lengths _ _ _ _ Hfit) as (_ & LA & La). rewrite HL in LA, La.
  assert (HP : o_data od <> Null -> o_data os <> Null ->
    match copy_error (k_locs k) (Nat.eqb d s) (regions (m_size od) R') (regions (m_size os) r') A a with
    | Some e => step true w c = Some (w, RExn e)
    | None => exists w', step true w c = Some (w', RDone) /\
                         copied aw w w' k d od os (regions (m_size od) R') (regions (m_size os) r') A a
    end).
  { intros Dd Ds. eapply copy_effect; eauto. intros _ q Hq.
    exact (copy_in_slots (k_locs k) (m_size od) (m_size os) R' r' A a q Fd Fs Ld Ls LR Lr LA La Hq). }
  assert (HE : m_size od = map (fun _ => (0, 0, 0)) (k_locs k) \/ m_size os = map (fun _ => (0, 0, 0)) (k_locs k) ->
    In center (k_locs k) ->
    match copy_error (k_locs k) (Nat.eqb d s) (regions (m_size od) R') (regions (m_size os) r') A a with
    | Some e => step true w c = Some (w, RExn e)
    | None => exists w', step true w c = Some (w', RDone) /\
                         copied aw w w' k d od os (regions (m_size od) R') (regions (m_size os) r') A a
    end).
  { intros He Hcen. rewrite (copy_step_eq F h w aw c k d s od os _ _ A a HA Hd Hs Hc HL Hfit).
    pose proof (empty_copy_box (k_locs k) _ _ R' r' A a He Ld Ls LR Lr LA La Hcen) as Hno.
    destruct (copy_error _ _ _ _ _ _); [reflexivity|]. exists w. split; [|eapply copied_nothing; eassumption].
    unfold on_mem. rewrite (copy_run_empty k od os _ (vsub A a) (heap w) Hno). now destruct w. }
  pose proof (rep_size _ _ _ _ _ Hrd) as Zd. pose proof (rep_size _ _ _ _ _ Hrs) as Zs.
  destruct x as [|g1 f1|g1 nb]; [| |destruct (Hhd _ _ _ Ad)];
  (destruct y as [|g2 f2|g2 nb]; [| |destruct (Hhs _ _ _ As)]); cbn [a_shape] in Zd, Zs.
  - rewrite (copy_step_eq F h w aw c k d s od os _ _ A a HA Hd Hs Hc HL Hfit).
    assert (Y : copy_error (k_locs k) (d =? s)%nat (regions (m_size od) R') (regions (m_size os) r') A a = Some EOverlapNotFound).
    { unfold copy_error. rewrite Zd, Zs, both_empty; auto. destruct k; discriminate. }
    rewrite Y. reflexivity.
  - destruct Hg as [Hg|Hg]; [|apply HE; auto]. exfalso. apply data_null in Hrd, Hrs.
    assert (X : o_data os <> Null) by (intros X; apply Hrs in X; discriminate). apply Hg in X. apply X. now apply Hrd.
  - destruct Hg as [Hg|Hg]; [|apply HE; auto]. exfalso. apply data_null in Hrd, Hrs.
    assert (X : o_data od <> Null) by (intros X; apply Hrd in X; discriminate). apply Hg in X. apply X. now apply Hrs.
  - apply HP; intros X; [apply (data_null _ _ _ _ _ Hrd) in X|apply (data_null _ _ _ _ _ Hrs) in X]; discriminate.
Qed.

(** ** Copying an array onto itself *)

Lemma self_guard F h w aw c k d od R r A a w' :
  after F h w aw -> find w d = Some (k, od) -> copies c k d d od od R r A a ->
  length R = length (k_locs k) -> copy_fits R r A a -> step true w c = Some (w', RDone) ->
  forall q q', in_box (copy_box (k_locs k) R r A a) q -> in_box (copy_box (k_locs k) R r A a) q' -> partner A a q <> q'.
Proof.
  intros HA Hd Hc HL Hfit E q q' Hq Hq'.
  rewrite (copy_step_eq F h w aw c k d d od od R r A a HA Hd Hd Hc HL Hfit) in E. rewrite Nat.eqb_refl in E.
  destruct (copy_error (k_locs k) true R r A a) eqn:Ee; [discriminate|].
  eapply guard_sound; eassumption.
Qed.

(** ** Copies outside the arrays *)

Lemma run_some_undef {S A} (Inv : S -> Prop) (l : list A) x (f : A -> M S unit) s :
  (forall y s, In y l -> Inv s -> f y s = Undef \/ exists s', f y s = Ret s' tt /\ Inv s') ->
  In x l -> (forall s, Inv s -> f x s = Undef) -> Inv s -> run l f s = Undef.
Proof.
  revert s. induction l as [|y l IH]; intros s H1 Hx H2 H3; [destruct Hx|]. cbn [run]. unfold bind.
  destruct (H1 y s (or_introl eq_refl) H3) as [E|(s' & E & H)]; rewrite E; [reflexivity|].
  destruct Hx as [->|Hx]; [rewrite H2 in E by assumption; discriminate|].
  apply IH; auto. intros z s1 Hz. apply H1. now right.
Qed.

Lemma copy_one1_cases d s v n q (m : mem V) :
  copy_one (O1 d) (O1 s) v n q m = Undef \/
  exists m', copy_one (O1 d) (O1 s) v n q m = Ret m' tt /\ (forall b len, blen m b len -> blen m' b len).
Proof.
  assert (L : forall o n q, m_lval m (O1 o) n q = UB \/ exists p, m_lval m (O1 o) n q = Ok p).
  { intros o n0 [|i [|? ?]]; cbn [m_lval]; auto. unfold lval1. unfold arr_get.
    destruct (0 <=? n0); [|now left]. destruct (nth_error _ _) as [p|]; [|now left]. cbn [rbind].
    unfold pidx. destruct p as [|b off|]; auto. destruct (block m b); auto. destruct (_ && _); eauto. }
  unfold copy_one. unfold bind, gets. destruct (L s n (vsub q v)) as [E|[p E]]; rewrite E; cbn [rbind lift]; [now left|].
  assert (X : load m p = UB \/ exists c, load m p = Ok c).
  { destruct p as [|b off|]; cbn [load]; auto. destruct (block m b); auto. destruct (0 <=? off); auto. destruct (nth_error _ _); eauto. }
  destruct X as [E1|[c E1]]; rewrite E1; cbn [lift]; [now left|].
  destruct (L d n q) as [E2|[p' E2]]; rewrite E2; cbn [lift]; [now left|].
  destruct (store p' c m) as [m' []|m' e|] eqn:E3.
  - right. exists m'. split; [reflexivity|]. intros b len. eapply store_lens. exact E3.
  - exfalso. destruct p' as [|b off|]; cbn [store] in E3; try discriminate. destruct (block m b); [|discriminate].
    destruct (_ && _); discriminate.
  - now left.
Qed.

Lemma lval1_outside N l0 (m : mem V) o g b x :
  0 < N -> shape_ok g -> liv1 N l0 m o g b -> ~ (fst (slots g l0) <= x < snd (slots g l0)) ->
  exists n, 0 <= n < N /\ forall m' : mem V, (forall b len, blen m b len -> blen m' b len) -> lval1 m' o n x = UB.
Proof.
  destruct g as [[n i] p]. cbn [shape_ok]. unfold liv1, slot_count. intros HN Hg (_ & _ & _ & HB & HS) Hx. cbn [slots fst snd] in Hx.
  pose proof (loc_val_range l0). set (P := n + i + p + loc_val l0) in *.
  assert (D : x < - n \/ i + p + loc_val l0 <= x) by lia. destruct D as [D|D].
  - exists 0. split; [lia|]. intros m' Hm. destruct (Hm _ _ HB) as (cs & E1 & E2).
    unfold lval1. rewrite (arr_get_ok _ _ _ (HS 0 ltac:(lia))). cbn [rbind pidx]. rewrite E1.
    replace (0 <=? 0 * P + n + x) with false by (symmetry; apply Z.leb_gt; lia). reflexivity.
  - exists (N - 1). split; [lia|]. intros m' Hm. destruct (Hm _ _ HB) as (cs & E1 & E2).
    unfold lval1. rewrite (arr_get_ok _ _ _ (HS (N - 1) ltac:(lia))). cbn [rbind pidx]. rewrite E1, E2.
    replace ((N - 1) * P + n + x <? N * P) with false by (symmetry; apply Z.ltb_ge; unfold P; nia).
    now rewrite andb_false_r.
Qed.

(** 1D: a copy that leaves one of the arrays is undefined. *)
Lemma copy_outside_1D F h w aw c N l0 d s od os R r A a q :
  let k := K1 N l0 in
  after F h w aw -> find w d = Some (k, od) -> find w s = Some (k, os) -> o_data od <> Null -> o_data os <> Null ->
  copies c k d s od os R r A a -> length R = 1%nat -> copy_fits R r A a ->
  copy_error [l0] (Nat.eqb d s) R r A a = None ->
  in_box (copy_box [l0] R r A a) q ->
  ~ (in_box (slot_box (m_size od) [l0]) q /\ in_box (slot_box (m_size os) [l0]) (partner A a q)) ->
  step true w c = None.
Proof.
  intros k HA Hd Hs Dd Ds Hc HL Hfit Ee Hq Hout.
  rewrite (copy_step_eq F h w aw c k d s od os R r A a HA Hd Hs Hc HL Hfit). cbn [k_locs k]. rewrite Ee.
  destruct (after_find _ _ _ _ _ _ _ HA Hd) as (x & own & lk & Ad & HN & Hrd & HR).
  destruct (after_find _ _ _ _ _ _ _ HA Hs) as (y & own' & lk' & As & _ & Hrs & _).
  pose proof (rep_size _ _ _ _ _ Hrd) as Zd. pose proof (rep_size _ _ _ _ _ Hrs) as Zs.
  pose proof (rep_shape_ok _ _ _ _ _ Hrd) as Fd. pose proof (rep_shape_ok _ _ _ _ _ Hrs) as Fs.
  destruct x as [|g1 f1|g1 nb]; [destruct Dd; eapply data_null; eauto| |destruct Hrd as (_ & _ & [] & _)].
  destruct y as [|g2 f2|g2 nb]; [destruct Ds; eapply data_null; eauto| |destruct Hrs as (_ & _ & [] & _)].
  destruct Hrd as (_ & _ & Ld & _). destruct Hrs as (_ & _ & Ls & _). cbn [a_shape] in *. rewrite Zd in *. rewrite Zs in *.
  destruct od as [od|od|od], g1 as [|g1 [|? ?]], (own d) as [|bd [|? ?]]; try contradiction.
  destruct os as [os|os|os], g2 as [|g2 [|? ?]], (own' s) as [|bs [|? ?]]; try contradiction. cbn [liv k] in Ld, Ls.
  apply Forall_inv in Fd, Fs. unfold kok in HN. cbn [k_N k] in HN.
  set (Inv := fun m : mem V => forall b len, blen (heap w) b len -> blen m b len).
  assert (HU : exists n, 0 <= n < N /\ forall m, Inv m -> copy_one (O1 od) (O1 os) (vsub A a) n q m = Undef).
  { assert (Lq : length q = 1%nat).
    { rewrite <- (in_box_length _ _ Hq). exact (copy_box_length [l0] R r A a HL Hfit). }
    destruct q as [|z [|? ?]]; try discriminate.
    destruct A as [|x [|? ?]], a as [|y [|? ?]]; try (apply copy_fits_lengths in Hfit; cbn in Hfit; lia).
    cbn [vsub combine map]. unfold partner in Hout. cbn [vsub combine map] in Hout.
    unfold slot_box in Hout. cbn [combine map] in Hout.
    assert (D : ~ (fst (slots g1 l0) <= z < snd (slots g1 l0)) \/ ~ (fst (slots g2 l0) <= z - (x - y) < snd (slots g2 l0))).
    { destruct (Z_le_dec (fst (slots g1 l0)) z); [|left; lia]. destruct (Z_lt_dec z (snd (slots g1 l0))); [|left; lia].
      right. intros X. apply Hout. split; repeat constructor; lia. }
    destruct D as [D|D].
    - destruct (lval1_outside N l0 (heap w) od g1 bd z) as (n & Hn & H); try assumption; [lia|].
      exists n. split; [assumption|]. intros m Hm. unfold copy_one, bind, gets. cbn [m_lval].
      destruct (let* p := _ in load m p) as [v|e|] eqn:E; cbn [lift]; [now rewrite H| |reflexivity].
      exfalso. unfold vsub in E. cbn [combine map m_lval] in E. unfold lval1, arr_get in E.
      destruct (0 <=? n); [|discriminate]. destruct (nth_error _ _) as [p|]; [|discriminate]. cbn [rbind] in E.
      unfold pidx in E. destruct p as [|b off|]; try discriminate. destruct (block m b) eqn:Eb; [|discriminate].
      destruct (_ && _); [|discriminate]. cbn [rbind load] in E. rewrite Eb in E. destruct (0 <=? _); [|discriminate].
      destruct (nth_error _ _); discriminate.
    - destruct (lval1_outside N l0 (heap w) os g2 bs (z - (x - y))) as (n & Hn & H); try assumption; [lia|].
      exists n. split; [assumption|]. intros m Hm. unfold copy_one, bind, gets, vsub. cbn [m_lval combine map].
      now rewrite H. }
  destruct HU as (n0 & Hn0 & HU).
  assert (HC : forall q m, Inv m -> for_uint 0 N (fun n => copy_one (O1 od) (O1 os) (vsub A a) n q) m = Undef \/
    exists m', for_uint 0 N (fun n => copy_one (O1 od) (O1 os) (vsub A a) n q) m = Ret m' tt /\ Inv m').
  { clear - HN. intros q m. rewrite for_uint_run by lia. generalize (zrange 0 N). intros l. revert m.
    induction l as [|n l IH]; intros m Hm; [right; exists m; split; [reflexivity|assumption]|]. cbn [run]. unfold bind.
    destruct (copy_one1_cases od os (vsub A a) n q m) as [E|(m' & E & H)]; rewrite E; [now left|].
    apply IH. intros b len Hb. auto. }
  unfold on_mem, copy_run. cbn [k_N k].
  rewrite (run_some_undef Inv _ q); [reflexivity| | | |intros b len Hb; exact Hb].
  - intros y m _ Hm. now apply HC.
  - now apply in_points.
  - intros m Hm. rewrite for_uint_run by lia. apply run_some_undef with (Inv := Inv) (x := n0).
    + intros n m1 _ H1. destruct (copy_one1_cases od os (vsub A a) n q m1) as [E|(m' & E & H)]; rewrite E; [now left|].
      right. exists m'. split; [reflexivity|]. intros b len Hb. auto.
    + apply in_zrange. lia.
    + exact HU.
    + exact Hm.
Qed.

(** ** Copies anchored by flags *)

Lemma aligned_eq ls R r fl :
  length R = length ls -> length r = length ls -> length fl = length ls ->
  copy_box ls R r (edges R fl) (edges r fl) = aligned_box ls R r fl /\
  forall q, length q = length ls -> partner (edges R fl) (edges r fl) q = aligned_partner R r fl q.
Proof.
  revert R r fl. induction ls as [|l ls IH]; intros [|f R] [|g r] [|b fl] L1 L2 L3; try discriminate.
  - split; [reflexivity|]. intros [|? ?]; [reflexivity|discriminate].
  - injection L1 as L1. injection L2 as L2. injection L3 as L3. destruct (IH R r fl L1 L2 L3) as [H1 H2]. split.
    + cbn [aligned_box]. rewrite <- H1. unfold copy_box, widen_high, caps, shift_box, vsub, edges. cbn [combine map]. f_equal.
      unfold aligned_dim, cap. destruct b; cbn [edge fst snd]; f_equal; lia.
    + intros [|x q] Lq; [discriminate|]. injection Lq as Lq. cbn [aligned_partner]. rewrite <- (H2 q Lq).
      unfold partner, vsub, edges. cbn [combine map]. f_equal. destruct b; cbn [edge]; lia.
Qed.

Lemma flag_copies (c : op V) k d s od os R r A a :
  copies c k d s od os R r A a -> by_flags c ->
  length R = length (k_locs k) -> length r = length (k_locs k) ->
  copy_box (k_locs k) R r A a = aligned_box (k_locs k) R r (flags_of c) /\
  forall q, length q = length (k_locs k) -> partner A a q = aligned_partner R r (flags_of c) q.
Proof.
  intros Hc Hb LR Lr. destruct c; cbn [by_flags] in Hb; try contradiction; cbn [copies flags_of] in *.
  - destruct Hc as (_ & _ & _ & _ & -> & -> & _ & L). now apply aligned_eq.
  - destruct Hc as (_ & _ & _ & _ & -> & -> & _ & _ & L). now apply aligned_eq.
Qed.
End Copies.
