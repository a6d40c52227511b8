(** Element counts beyond 32 bits. *)

From Coq Require Import ZArith List Bool Lia.
From Verif Require Import Base M_Flags M_Loop M_RS1 M_RS2 M_RS3 M_Heap M_PD1 M_PD2 M_PD3 M_World
  Spec Spec_Loop Spec_Array Spec_Hist Spec_Reach
  L_Base L_RS L_Range L_Loop L_Heap L_Lin L_Rep L_PD1 L_PD2 L_PD3 L_Kind L_Copy L_World L_Access L_Life.
Import ListNotations.
Open Scope Z_scope.

Section Wrap.
Context {V : Type}.

Lemma alloc2_wrap chk N l0 l1 (m : mem V) o n i p n1 i1 p1 :
  shape_ok (n, i, p) -> shape_ok (n1, i1, p1) -> pd2_data o = Null ->
  bad_dim 0 [(n, i, p); (n1, i1, p1)] = None ->
  (slot_count (n, i, p) l0 * slot_count (n1, i1, p1) l1) mod UINT_MOD = 0 ->
  alloc2 chk N l0 l1 n i p n1 i1 p1 (m, o) = Ret (m, o) tt.
Proof.
  intros Hg0 Hg1 Hd Hb Hv.
  pose proof (shape_ok_fits _ Hg0) as Hf0. pose proof (shape_ok_fits _ Hg1) as Hf1.
  pose proof (loc_val_range l0) as Hl0. pose proof (loc_val_range l1) as Hl1.
  assert (Hf : Forall dim_fits (shape2 (mkSize2 (i, i1) (n, n1) (p, p1)))) by (apply Forall_two; assumption).
  pose proof (dim_facts2 chk _ 0 ltac:(lia) Hf) as F0.
  pose proof (dim_facts2 chk _ 1 ltac:(lia) Hf) as F1.
  change (dimof2 _ 0) with (n, i, p) in F0. change (dimof2 _ 1) with (n1, i1, p1) in F1.
  destruct F0 as (_ & _ & _ & F0). destruct (F0 RALL) as (_ & _ & Z0 & _). clear F0.
  destruct F1 as (_ & _ & _ & F1). destruct (F1 RALL) as (_ & _ & Z1 & _). clear F1.
  cbn [region fst snd] in Z0, Z1. cbn [slot_count] in Hv.
  unfold shape_ok in Hg0, Hg1.
  assert (U0 : uadd (i + p - - n) (loc_val l0) = n + i + p + loc_val l0) by (rewrite uadd_small; lia).
  assert (U1 : uadd (i1 + p1 - - n1) (loc_val l1) = n1 + i1 + p1 + loc_val l1) by (rewrite uadd_small; lia).
  unfold alloc2. rewrite b_get. rewrite Hd. cbn [is_null negb].
  rewrite mk_sizeT2_fits by assumption. unfold scheck2. cbn [s2_in s2_n s2_p fst snd].
  rewrite !scheck_dim_eq by assumption. cbn [bad_dim] in Hb.
  destruct ((i =? 0) && _); [discriminate|]. cbn [rbind].
  destruct ((i1 =? 0) && _); [discriminate|]. rewrite b_ok.
  rewrite Z0, b_ok, Z1, b_ok, U0, U1. unfold umul at 1, uwrap. rewrite Hv. reflexivity.
Qed.

Lemma alloc3_wrap chk N l0 l1 l2 (m : mem V) o n i p n1 i1 p1 n2 i2 p2 :
  shape_ok (n, i, p) -> shape_ok (n1, i1, p1) -> shape_ok (n2, i2, p2) -> pd3_data o = Null ->
  bad_dim 0 [(n, i, p); (n1, i1, p1); (n2, i2, p2)] = None ->
  (slot_count (n, i, p) l0 * slot_count (n1, i1, p1) l1 * slot_count (n2, i2, p2) l2) mod UINT_MOD = 0 ->
  alloc3 chk N l0 l1 l2 n i p n1 i1 p1 n2 i2 p2 (m, o) = Ret (m, o) tt.
Proof.
  intros Hg0 Hg1 Hg2 Hd Hb Hv.
  pose proof (shape_ok_fits _ Hg0) as Hf0. pose proof (shape_ok_fits _ Hg1) as Hf1.
  pose proof (shape_ok_fits _ Hg2) as Hf2.
  pose proof (loc_val_range l0) as Hl0. pose proof (loc_val_range l1) as Hl1. pose proof (loc_val_range l2) as Hl2.
  assert (Hf : Forall dim_fits (shape3 (size3_of (n, i, p) (n1, i1, p1) (n2, i2, p2)))) by (apply Forall_three; assumption).
  pose proof (dim_facts3 chk _ 0 ltac:(lia) Hf) as F0.
  pose proof (dim_facts3 chk _ 1 ltac:(lia) Hf) as F1.
  pose proof (dim_facts3 chk _ 2 ltac:(lia) Hf) as F2.
  change (dimof3 _ 0) with (n, i, p) in F0. change (dimof3 _ 1) with (n1, i1, p1) in F1.
  change (dimof3 _ 2) with (n2, i2, p2) in F2.
  destruct F0 as (_ & _ & _ & F0). destruct (F0 RALL) as (_ & _ & Z0 & _). clear F0.
  destruct F1 as (_ & _ & _ & F1). destruct (F1 RALL) as (_ & _ & Z1 & _). clear F1.
  destruct F2 as (_ & _ & _ & F2). destruct (F2 RALL) as (_ & _ & Z2 & _). clear F2.
  cbn [region fst snd] in Z0, Z1, Z2. cbn [slot_count] in Hv.
  unfold shape_ok in Hg0, Hg1, Hg2.
  assert (U0 : uadd (i + p - - n) (loc_val l0) = n + i + p + loc_val l0) by (rewrite uadd_small; lia).
  assert (U1 : uadd (i1 + p1 - - n1) (loc_val l1) = n1 + i1 + p1 + loc_val l1) by (rewrite uadd_small; lia).
  assert (U2 : uadd (i2 + p2 - - n2) (loc_val l2) = n2 + i2 + p2 + loc_val l2) by (rewrite uadd_small; lia).
  set (s := size3_of (n, i, p) (n1, i1, p1) (n2, i2, p2)) in *.
  unfold alloc3. rewrite b_get. rewrite Hd. cbn [is_null negb].
  rewrite mk_sizeT3_fits by assumption. change (mkSize3 _ _ _) with s.
  unfold scheck3. cbn [s size3_of s3_in s3_n s3_p c0 c1 c2].
  rewrite !scheck_dim_eq by assumption. cbn [bad_dim] in Hb.
  destruct ((i =? 0) && _); [discriminate|]. cbn [rbind].
  destruct ((i1 =? 0) && _); [discriminate|]. cbn [rbind].
  destruct ((i2 =? 0) && _); [discriminate|]. rewrite b_ok.
  change {| s3_in := _; s3_n := _; s3_p := _ |} with s.
  rewrite Z0, b_ok, Z1, b_ok, Z2, b_ok, U0, U1, U2. unfold umul at 1 2, uwrap.
  rewrite Z.mul_mod_idemp_l by lia. rewrite Hv. reflexivity.
Qed.

(** A loop whose last step is undefined whenever it is reached. *)
Lemma run_undef {S A} (Inv : S -> Prop) (l : list A) x (f : A -> M S unit) s :
  (forall y s, In y l -> Inv s -> f y s = Undef \/ exists s', f y s = Ret s' tt /\ Inv s') ->
  (forall s, Inv s -> f x s = Undef) -> Inv s -> run (l ++ [x]) f s = Undef.
Proof.
  revert s. induction l as [|y l IH]; intros s H1 H2 H3; cbn [app run].
  - unfold bind. now rewrite H2.
  - unfold bind. destruct (H1 y s (or_introl eq_refl) H3) as [E|(s' & E & H)]; rewrite E; [reflexivity|].
    apply IH; auto. intros z s1 Hz. apply H1. now right.
Qed.

Lemma padd_cases (m : mem V) p k : padd m p k = UB \/ exists q, padd m p k = Ok q.
Proof.
  destruct p as [|b off|]; cbn; [destruct (k =? 0); eauto| |auto].
  destruct (block m b); [|auto]. destruct (_ && _); eauto.
Qed.

Lemma padd_past (m : mem V) b len k : blen m b len -> len < k -> padd m (Ptr b 0) k = UB.
Proof.
  intros (cs & H & HL) Hk. unfold padd. rewrite H.
  replace (0 + k <=? Z.of_nat (length cs)) with false by (symmetry; apply Z.leb_gt; lia).
  now rewrite andb_false_r.
Qed.

Lemma alloc1_wrap chk N l0 (m : mem V) o n i p :
  0 < N < UINT_MOD -> shape_ok (n, i, p) -> pd1_data o = Null -> bad_dim 0 [(n, i, p)] = None ->
  let P := slot_count (n, i, p) l0 in
  (N - 1) * P < UINT_MOD -> UINT_MOD <= N * P -> fails m (tick m) = false ->
  alloc1 chk N l0 n i p (m, o) = Undef.
Proof.
  intros HN Hg Hd Hb P H1 H2 HF.
  pose proof (shape_ok_fits _ Hg) as Hf. pose proof (loc_val_range l0) as Hl.
  destruct (dim_facts1 chk n i p Hf) as (_ & _ & _ & F). destruct (F RALL) as (_ & _ & F3 & _).
  pose proof Hg as Hg'. unfold shape_ok in Hg'. cbn [region fst snd] in F3.
  assert (HP0 : P = n + i + p + loc_val l0) by reflexivity.
  assert (Eu : uadd (i + p - - n) (loc_val l0) = P) by (rewrite uadd_small; lia).
  assert (HPN : N * P = (N - 1) * P + P) by ring.
  unfold alloc1. unfold bind at 1. unfold get_snd at 1. cbn [snd]. rewrite Hd. cbn [is_null negb].
  rewrite mk_sizeT1_fits by exact Hf. rewrite scheck1_eq by exact Hg. cbn [bad_dim] in Hb.
  destruct (_ && _); [discriminate|].
  unfold bind at 1. cbn [lift]. rewrite F3. unfold bind at 1. cbn [lift]. rewrite Eu.
  assert (EP : P =? 0 = false) by (apply Z.eqb_neq; nia). rewrite EP. cbn [negb].
  unfold catch_bad_alloc. rewrite b_fst, hnew_eq, HF.
  assert (EM : umul P N = N * P - UINT_MOD).
  { unfold umul, uwrap. rewrite Z.mul_comm. symmetry. apply Z.mod_unique with (q := 1); lia. }
  rewrite EM. set (m1 := mem_new m (N * P - UINT_MOD)). set (b := length (blocks m)).
  assert (HB : blen m1 b (N * P - UINT_MOD)) by (apply blen_new; lia).
  unfold set_data1, set_size1. rewrite !b_upd. cbn [pd1_data pd1_size pd1_pt0].
  rewrite for_uint_run by lia. rewrite zrange_snoc by lia.
  rewrite run_undef with (Inv := fun s : mem V * pd1 => fst s = m1 /\ pd1_data (snd s) = Ptr b 0);
    [reflexivity| | |split; reflexivity].
  - intros k [m2 o2] _ [I1 I2]. cbn [fst snd] in *. subst m2. rewrite b_get, b_gets, I2.
    destruct (padd_cases m1 (Ptr b 0) (umul k P)) as [E|[q E]]; rewrite E; [now left|].
    rewrite sn1_0, b_ok, b_gets. cbn [s1_n].
    destruct (padd_cases m1 q n) as [E'|[q' E']]; rewrite E'; [now left|].
    unfold set_pt0_1. mon. unfold arr_set. destruct (_ && _); [|now left].
    right. eexists. split; [reflexivity|]. split; [reflexivity|exact I2].
  - intros [m2 o2] [I1 I2]. cbn [fst snd] in *. subst m2. rewrite b_get, b_gets, I2.
    rewrite umul_small by lia. rewrite (padd_past _ _ _ _ HB) by lia. reflexivity.
Qed.

(** 1D: the storage gets smaller than the shape and the component pointers leave it. *)
Lemma wrapped_count_1D F (h : list (op V)) w aw a N l0 o g :
  after F h w aw -> find w a = Some (K1 N l0, o) -> o_data o = Null ->
  shape_ok g -> bad_dim 0 [g] = None -> (N - 1) * extent g l0 < UINT_MOD <= N * extent g l0 ->
  memory_for F w 1 ->
  step true w (Alloc a [g]) = None.
Proof.
  intros HA Hf Hd Hs Hb [H1 H2] HM. destruct (after_find _ _ _ _ _ _ _ HA Hf) as (x & own & lk & Ha & HK & Hr & HR).
  pose proof (rep_class _ _ _ _ _ Hr) as Hc. cbn [step]. unfold on_obj. rewrite Hf.
  destruct o as [o|o|o]; try contradiction. destruct g as [[n i] p].
  cbn [m_alloc in1]. rewrite alloc1_wrap; auto.
  - unfold kok in HK. cbn [k_N] in HK. lia.
  - rewrite (r_fails _ _ _ _ _ HR). apply HM. lia.
Qed.

(** Counts that are multiples of 2^32 count as zero. *)
Lemma wrapped_count_is_empty F (h : list (op V)) w aw a k o gs :
  after F h w aw -> find w a = Some (k, o) -> o_data o = Null ->
  length gs = length (k_locs k) -> (2 <= length gs)%nat -> Forall shape_ok gs -> bad_dim 0 gs = None ->
  zprod (map (fun '(g, l) => extent g l) (combine gs (k_locs k))) mod UINT_MOD = 0 ->
  step true w (Alloc a gs) = Some (w, RDone).
Proof.
  intros HA Hf Hd Hl H2 Hs Hb Hv. destruct (after_find _ _ _ _ _ _ _ HA Hf) as (x & own & lk & Ha & HN & Hr & HR).
  pose proof (rep_class _ _ _ _ _ Hr) as Hc. cbn [step]. unfold on_obj. rewrite Hf.
  destruct k as [N l0|N l0 l1|N l0 l1 l2], o as [o|o|o]; try contradiction;
    destruct gs as [|[[n i] p] [|[[n1 i1] p1] [|[[n2 i2] p2] [|g3 gs]]]]; cbn in Hl, H2; try discriminate; try lia.
  - apply Forall_cons_iff in Hs. destruct Hs as [S0 Hs]. apply Forall_cons_iff in Hs. destruct Hs as [S1 _].
    cbn [m_alloc in2]. rewrite alloc2_wrap; auto; [now rewrite world_same|].
    rewrite <- Hv. f_equal. cbn. ring.
  - apply Forall_cons_iff in Hs. destruct Hs as [S0 Hs]. apply Forall_cons_iff in Hs. destruct Hs as [S1 Hs].
    apply Forall_cons_iff in Hs. destruct Hs as [S2 _].
    cbn [m_alloc in3]. rewrite alloc3_wrap; auto; [now rewrite world_same|].
    rewrite <- Hv. f_equal. cbn. ring.
Qed.

End Wrap.
