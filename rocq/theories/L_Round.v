(** Writing an array and reading it back. *)

From Coq Require Import ZArith Ascii String List Bool Lia.
From Verif Require Import Base M_Flags M_Loop M_RS1 M_RS2 M_RS3 M_Bytes M_TecZone M_TecFile Spec_Tec Spec_Plt
  L_TecZone L_ReadLog
  M_Heap M_PD1 M_PD2 M_PD3 M_World M_Read
  Spec Spec_Loop Spec_Array Spec_Hist Spec_Reach Spec_Read
  L_Base L_RS L_Range L_Loop L_Heap L_Lin L_Rep L_PD1 L_PD2 L_PD3 L_Kind L_Copy L_World L_Access L_Life L_Copies L_ReadCall L_Read.
Import ListNotations.
Open Scope Z_scope.

(** ** The zone *)

Lemma sampled_one max b e : 0 <= b -> 0 <= e -> b + e < max ->
  Z.of_nat (length (sampled max 1 b e)) = max - b - e.
Proof.
  intros. change (Z.of_nat (length (sampled max 1 b e))) with (samples max 1 b e).
  rewrite samples_eq by lia. unfold ceil. rewrite Z.div_1_r. lia.
Qed.

Lemma list3_inj v a b c : list3 v = [a; b; c] -> v = mk3 a b c.
Proof. destruct v. cbn. intros E. now injection E as -> -> ->. Qed.

Section Zone.
Variables (ls : list loc) (gs : list dim_shape) (z : zone).
Hypothesis HD : length ls = 1%nat \/ length ls = 2%nat \/ length ls = 3%nat.
Hypothesis HL : length gs = length ls.
Hypothesis HS : Forall shape_ok gs.
Hypothesis HI : Forall (fun x => 0 < x) (inner ls gs).
Hypothesis HT : takes_interior ls gs z.

Lemma zone_samples : samples_of z = pad 1 (rev (inner ls gs)).
Proof.
  destruct HT as (T1 & T2 & T3 & T4).
  destruct HD as [D|[D|D]]; destruct ls as [|l0 [|l1 [|l2 [|? ?]]]]; try discriminate;
    destruct gs as [|[[n0 i0] p0] [|[[n1 i1] p1] [|[[n2 i2] p2] [|? ?]]]]; try discriminate;
    unfold inner in *; cbn [combine map rev app pad firstn extent] in *;
    apply list3_inj in T1, T2, T3, T4;
    unfold samples_of, sampled0, sampled1, sampled2; rewrite T1, T2, T3, T4; cbn [x0 x1 x2];
    repeat match goal with H : Forall _ (_ :: _) |- _ => inversion H; clear H; subst end;
    unfold shape_ok in *;
    rewrite !sampled_one by lia; repeat (f_equal; try lia).
Qed.

Lemma zone_element size mem q :
  zone_fits z -> 0 < size -> org_count z * size <= Z.of_nat (length mem) -> in_box (corner (inner ls gs)) q ->
  element size (block_of z size mem) (rank (inner ls gs) q) = element size mem (lin (slot_box gs ls) 0 q).
Proof.
  intros Hf Hsz Hm Hq. pose proof zone_samples as ES.
  destruct HT as (T1 & T2 & T3 & T4).
  pose proof (block_point z size mem) as BP. unfold samples_of in ES.
  destruct HD as [D|[D|D]]; destruct ls as [|l0 [|l1 [|l2 [|? ?]]]]; try discriminate;
    destruct gs as [|[[n0 i0] p0] [|[[n1 i1] p1] [|[[n2 i2] p2] [|? ?]]]]; try discriminate;
    unfold inner in *; cbn [combine map rev app pad firstn extent corner] in *;
    apply list3_inj in T1, T2, T3, T4;
    injection ES as E0 E1 E2; rewrite E0, E1, E2 in BP; rewrite T1, T2, T4 in BP; cbn [x0 x1 x2] in BP.
  - apply in_box_cons in Hq. destruct Hq as (q0 & r & -> & H0 & Hq). inversion Hq; subst. cbn [fst snd] in *.
    specialize (BP q0 0 0 Hf Hsz Hm ltac:(lia) ltac:(lia) ltac:(lia)).
    cbn [rank product fold_right lin slot_box combine map slots fst snd].
    match type of BP with element _ _ ?a = element _ _ ?b => match goal with |- element _ _ ?c = element _ _ ?d =>
      replace c with a by lia; replace d with b by lia end end. exact BP.
  - apply in_box_cons in Hq. destruct Hq as (q0 & r & -> & H0 & Hq).
    apply in_box_cons in Hq. destruct Hq as (q1 & r' & -> & H1 & Hq). inversion Hq; subst. cbn [fst snd] in *.
    specialize (BP q1 q0 0 Hf Hsz Hm ltac:(lia) ltac:(lia) ltac:(lia)).
    cbn [rank product fold_right lin slot_box combine map slots fst snd].
    match type of BP with element _ _ ?a = element _ _ ?b => match goal with |- element _ _ ?c = element _ _ ?d =>
      replace c with a by lia; replace d with b by lia end end. exact BP.
  - apply in_box_cons in Hq. destruct Hq as (q0 & r & -> & H0 & Hq).
    apply in_box_cons in Hq. destruct Hq as (q1 & r' & -> & H1 & Hq).
    apply in_box_cons in Hq. destruct Hq as (q2 & r'' & -> & H2 & Hq). inversion Hq; subst. cbn [fst snd] in *.
    specialize (BP q2 q1 q0 Hf Hsz Hm ltac:(lia) ltac:(lia) ltac:(lia)).
    cbn [rank product fold_right lin slot_box combine map slots fst snd].
    match type of BP with element _ _ ?a = element _ _ ?b => match goal with |- element _ _ ?c = element _ _ ?d =>
      replace c with a by lia; replace d with b by lia end end. exact BP.
Qed.

Lemma inner_length : length (inner ls gs) = length ls.
Proof. unfold inner. rewrite map_length, combine_length. lia. Qed.

Lemma log_sizes_inner k zl : length (k_locs k) = length ls -> list3 (r_max (zl_real zl)) = samples_of z ->
  log_sizes k zl = inner ls gs.
Proof.
  intros Hk E. unfold log_sizes. rewrite E, zone_samples, Hk. unfold pad. rewrite firstn_firstn.
  replace (Init.Nat.min (length ls) 3) with (length ls) by (destruct HD as [->|[->| ->]]; reflexivity).
  rewrite firstn_app, rev_length, inner_length, Nat.sub_diag, firstn_O, app_nil_r.
  rewrite firstn_all2 by (rewrite rev_length, inner_length; lia). apply rev_involutive.
Qed.
End Zone.

Lemma size_in_pos gs ss : Forall2 size_in gs ss -> Forall (fun x => 0 < x) ss.
Proof. induction 1 as [|[[n i] p] s gs ss H]; constructor; [cbn in H; lia|assumption]. Qed.

Lemma k_dims k : length (k_locs k) = 1%nat \/ length (k_locs k) = 2%nat \/ length (k_locs k) = 3%nat.
Proof. destruct k; cbn; auto. Qed.


(** ** The whole *)

Section Round.
Context {V1 V2 : Type}.

Lemma lies_element b pos blk wd i :
  lies_at b pos blk -> 0 <= i -> 0 <= wd -> (i + 1) * wd <= Z.of_nat (length blk) ->
  firstn (Z.to_nat wd) (skipn (Z.to_nat (pos + i * wd)) b) = element wd blk i.
Proof.
  intros (H1 & H2 & H3) Hi Hw Hl. unfold element. rewrite <- H3. rewrite piece_piece by nia.
  rewrite Z2Nat.inj_add by nia. reflexivity.
Qed.

(** What the second program finds: a log it can read from, and the values of the first program at
    the places the log names. *)
Lemma round_readable (of_float of_double : bytes -> option V2)
    F1 h1 (w1 : world V1) aw1 a1 k1 o1 n1 k2 gs2 n2 (starved : Prop)
    wd dec (enc : V1 -> bytes) (cast : V1 -> V2) mem t d e f s g u zi z name vv fs root :
  after F1 h1 w1 aw1 -> healthy aw1 a1 -> find w1 a1 = Some (k1, o1) -> o_data o1 <> Null -> 0 <= n1 < k_N k1 ->
  0 <= n2 < k_N k2 -> length (k_locs k2) = length (k_locs k1) ->
  Forall2 size_in gs2 (inner (k_locs k1) (m_size o1)) ->
  (t = CFloat /\ wd = 4 /\ dec = of_float \/ t = CDouble /\ wd = 8 /\ dec = of_double) ->
  (forall bs, Z.of_nat (length bs) = wd -> dec bs <> None) -> (forall v, dec (enc v) = Some (cast v)) ->
  image w1 k1 o1 n1 wd enc mem -> data_of t (Some mem) = Ok d ->
  file_wf f -> plt_size f < 2 ^ 63 -> 0 <= zi -> nth_error (f_zones f) (Z.to_nat zi) = Some z ->
  takes_interior (k_locs k1) (m_size o1) z ->
  first_at (f_vars f) name vv -> nth_error (z_data z) vv = Some d ->
  write_plt e f = Ret (s, g) u -> fs (plt_path root g) = disk s -> ~ starved ->
  exists zl dl b, log_wf g /\ readable fs root g zi name n2 k2 gs2 starved zl dl b /\
    log_sizes k2 zl = inner (k_locs k1) (m_size o1) /\
    (forall i, 0 <= i < product (inner (k_locs k1) (m_size o1)) ->
       stored of_float of_double (dl_type dl) b (dl_pt dl) i <> None) /\
    forall q v, in_box (corner (inner (k_locs k1) (m_size o1))) q -> reads w1 k1 o1 n1 q (Some v) ->
      stored of_float of_double (dl_type dl) b (dl_pt dl) (rank (inner (k_locs k1) (m_size o1)) q) = Some (cast v).
Proof.
  intros A1 H1 Hf1 Hn1 Hc1 Hc2 HK HS Ht Hdec Hed Himg Hd Hw Hps Hzi Hz Htk Hv Hdv Ew Hfs Hmem.
  destruct (after_find _ _ _ _ _ _ _ A1 Hf1) as (x1 & own1 & lk1 & Ha1 & HN1 & Hr1 & _).
  destruct x1 as [|gs f1|gs nb]; [destruct Hn1; eapply data_null; eauto| |destruct (H1 _ _ _ Ha1)].
  pose proof (rep_size _ _ _ _ _ Hr1) as Zs. cbn [a_shape] in Zs.
  pose proof Hr1 as ((HL & HSh & _) & _).
  rewrite Zs in *. set (ss := inner (k_locs k1) gs) in *.
  pose proof (size_in_pos _ _ HS) as Hpos.
  assert (Hdt : d_mem d = Some mem /\ width (d_type d) = wd /\ 0 < wd /\
                (d_type d = 1 \/ d_type d = 2) /\ (if d_type d =? 1 then of_float else of_double) = dec).
  { destruct Ht as [(-> & -> & ->)|(-> & -> & ->)]; cbn in Hd; injection Hd as <-; cbn;
      (split; [reflexivity|]); (split; [reflexivity|]); (split; [lia|]); auto. }
  destruct Hdt as (Hdt & Hwd & Hwp & Hty & Hdecq).
  destruct (written_log e f s g u Hw Hps Ew) as (b & Hb & Hgf & Hlog & Hall).
  destruct (Hall _ z vv d mem Hz Hdv) as (Hfit & Hlen & zl & dl & Hzl & Hdl & Hmax & Hdty & Hlies); [assumption|].
  rewrite Hwd in *.
  pose proof (k_dims k1) as HD.
  assert (Hss : log_sizes k2 zl = ss) by (eapply log_sizes_inner; eauto).
  pose proof (zone_samples (k_locs k1) gs z HD HL HSh Hpos Htk) as Hsamp.
  assert (Hblk : Z.of_nat (length (block_of z wd mem)) = product ss * wd).
  { rewrite (block_length z wd mem Hfit Hwp Hlen). destruct Hfit as ((D0 & D1 & D2) & _).
    destruct (dir_real _ _ _ _ D0) as (P0 & _ & _ & _ & S0). destruct (dir_real _ _ _ _ D1) as (P1 & _ & _ & _ & S1).
    destruct (dir_real _ _ _ _ D2) as (P2 & _ & _ & _ & S2). fold (R0 z) (R1 z) (R2 z) in *.
    unfold samples_of, sampled0, sampled1, sampled2 in Hsamp. rewrite S0, S1, S2, !length_steps, !Z2Nat.id in Hsamp by lia.
    unfold ss. f_equal. clear - Hsamp HD HL.
    destruct HD as [D|[D|D]]; destruct (k_locs k1) as [|l0 [|l1 [|l2 [|? ?]]]]; try discriminate;
      destruct gs as [|[[n0 i0] p0] [|[[n1 i1] p1] [|[[n2 i2] p2] [|? ?]]]]; try discriminate;
      unfold inner in *; cbn [combine map rev app pad firstn] in *; injection Hsamp as -> -> ->;
      cbn [product fold_right]; lia. }
  assert (Hread : readable fs root g zi name n2 k2 gs2 starved zl dl b).
  { split; [|rewrite Hdty; exact Hty]. split; [|split].
    - split; [|split; [congruence|apply Hlies]]. split.
      + split; [split; [lia|assumption]|]. now rewrite Hss.
      + exists vv. rewrite Hgf. auto.
    - assumption.
    - rewrite Hss, Hdty, Hwd. rewrite <- Hblk. apply Hlies. }
  assert (Hst : forall i, 0 <= i < product ss ->
    stored of_float of_double (dl_type dl) b (dl_pt dl) i = dec (element wd (block_of z wd mem) i)).
  { intros i Hi. unfold stored. rewrite Hdty, Hwd, Hdecq. f_equal. apply lies_element; [assumption|lia|lia|nia]. }
  exists zl, dl, b. split; [exact Hlog|]. split; [exact Hread|]. split; [exact Hss|]. split.
  { intros i Hi. rewrite (Hst i Hi). apply Hdec. apply element_length; [lia|lia|nia]. }
  intros q v Hq Hrd. rewrite Hst by now apply rank_range.
  unfold ss in Hq |- *. rewrite (zone_element (k_locs k1) gs z HD HL HSh Hpos Htk wd mem q Hfit Hwp Hlen Hq).
  pose proof (reads_rep w1 k1 o1 gs f1 (own1 a1) n1 q (Some v) HN1 Hr1) as X. apply X in Hrd. destruct Hrd as (_ & Hqs & Ev).
  destruct Himg as (bb & c & Ed & Him).
  rewrite (data_pt_ok false k1 (heap w1) o1 gs f1 (own1 a1) n1 HN1 Hr1 Hc1) in Ed. injection Ed as <- <-.
  rewrite Zs in Him. pose proof (lin_bounds (slot_box gs (k_locs k1)) q 0 1 ltac:(lia) Hqs) as Hb1.
  rewrite (Him (lin (slot_box gs (k_locs k1)) 0 q) v); [apply Hed|lia|].
  destruct Hr1 as (_ & _ & _ & Hh). pose proof (holds_load _ _ _ _ _ n1 q Hh Hc1 Hqs) as Hld. rewrite <- Ev in Hld.
  cbn [cell_of] in Hld. rewrite <- Hld. do 2 f_equal. unfold sbox. rewrite (lin_acc _ n1) by assumption. reflexivity.
Qed.

Lemma round_trip chk (of_float of_double : bytes -> option V2)
    F1 h1 (w1 : world V1) aw1 a1 k1 o1 n1 F2 h2 (w2 : world V2) aw2 a2 k2 o2 n2
    wd dec (enc : V1 -> bytes) (cast : V1 -> V2) mem t d e f s g u zi z name vv fs root live :
  after F1 h1 w1 aw1 -> healthy aw1 a1 -> find w1 a1 = Some (k1, o1) -> o_data o1 <> Null -> 0 <= n1 < k_N k1 ->
  after F2 h2 w2 aw2 -> healthy aw2 a2 -> find w2 a2 = Some (k2, o2) -> 0 <= n2 < k_N k2 ->
  length (k_locs k2) = length (k_locs k1) ->
  Forall2 size_in (m_size o2) (inner (k_locs k1) (m_size o1)) ->
  (t = CFloat /\ wd = 4 /\ dec = of_float \/ t = CDouble /\ wd = 8 /\ dec = of_double) ->
  (forall bs, Z.of_nat (length bs) = wd -> dec bs <> None) -> (forall v, dec (enc v) = Some (cast v)) ->
  image w1 k1 o1 n1 wd enc mem -> data_of t (Some mem) = Ok d ->
  file_wf f -> plt_size f < 2 ^ 63 -> 0 <= zi -> nth_error (f_zones f) (Z.to_nat zi) = Some z ->
  takes_interior (k_locs k1) (m_size o1) z ->
  first_at (f_vars f) name vv -> nth_error (z_data z) vv = Some d ->
  write_plt e f = Ret (s, g) u -> fs (plt_path root g) = disk s -> F2 (tick (heap w2)) = false ->
  exists w2' val,
    m_read_plt chk of_float of_double k2 fs root g zi name n2 o2 (heap w2, live) = Ret (heap w2', live) tt /\
    overwritten aw2 w2 w2' k2 a2 o2 n2 (inner (k_locs k1) (m_size o1)) val /\
    forall q v, in_box (corner (inner (k_locs k1) (m_size o1))) q -> reads w1 k1 o1 n1 q (Some v) -> val q = Some (cast v).
Proof.
  intros A1 H1 Hf1 Hn1 Hc1 A2 H2 Hf2 Hc2 HK HS Ht Hdec Hed Himg Hd Hw Hps Hzi Hz Htk Hv Hdv Ew Hfs Hmem.
  destruct (round_readable of_float of_double F1 h1 w1 aw1 a1 k1 o1 n1 k2 (m_size o2) n2 (F2 (tick (heap w2)) = true)
    wd dec enc cast mem t d e f s g u zi z name vv fs root A1 H1 Hf1 Hn1 Hc1 Hc2 HK HS Ht Hdec Hed Himg Hd Hw Hps Hzi Hz Htk
    Hv Hdv Ew Hfs ltac:(congruence)) as (zl & dl & b & Hlog & Hread & Hss & Hst & Hval).
  destruct (read_done chk of_float of_double F2 h2 w2 aw2 a2 k2 o2 A2 H2 Hf2 fs root g zi name n2 live Hlog Hzi (proj1 Hc2) zl dl b Hread)
    as (w2' & E & Hov).
  { rewrite Hss. exact Hst. }
  rewrite Hss in Hov. exists w2'. eexists. split; [exact E|]. split; [exact Hov|]. exact Hval.
Qed.
End Round.
