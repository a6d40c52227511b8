(** Layout, life cycle and ownership in reachable states. *)

From Coq Require Import ZArith List Bool Lia.
From Verif Require Import Base M_Bytes M_TecZone M_TecFile M_Read Spec_Log M_Flags M_Loop M_RS1 M_RS2 M_RS3 M_Heap M_PD1 M_PD2 M_PD3 M_World
  Spec Spec_Loop Spec_Array Spec_Hist Spec_Reach
  L_Base L_RS L_Range L_Loop L_Heap L_Lin L_Rep L_PD1 L_PD2 L_PD3 L_Kind L_Copy L_World L_Sim L_Access.
Import ListNotations.
Open Scope Z_scope.

Section Life.
Context {V : Type}.
Implicit Types (w : world V) (aw : aworld V) (h : list (op V)).

(** ** Layout *)

Lemma data_pt_addr F h w aw a k o n b chk :
  after F h w aw -> healthy aw a -> find w a = Some (k, o) -> o_data o = Ptr b 0 -> 0 <= n < k_N k ->
  m_data_pt chk k (heap w) o n = Ok (Ptr b (n * vol (slot_box (m_size o) (k_locs k)))).
Proof.
  intros HA HH Hf Hd Hn. destruct (after_find _ _ _ _ _ _ _ HA Hf) as (x & own & lk & Ha & HN & Hr & HR).
  pose proof (rep_data _ _ _ _ _ Hr) as Hdd.
  destruct x as [|gs f|gs nb]; [congruence| |destruct (HH _ _ _ Ha)].
  rewrite (data_pt_ok chk k (heap w) o gs f (own a)) by assumption.
  rewrite (rep_size _ _ _ _ _ Hr). cbn [a_shape]. fold (sbox k gs).
  destruct Hr as (_ & _ & R3 & _). apply liv_data in R3. rewrite Hd in R3. now injection R3 as ->.
Qed.

Lemma layout1 F h w aw a N l0 o g0 b :
  after F h w aw -> healthy aw a -> find w a = Some (K1 N l0, o) -> m_size o = [g0] -> o_data o = Ptr b 0 ->
  (forall n, 0 <= n < N -> m_data_pt true (K1 N l0) (heap w) o n = Ok (Ptr b (n * extent g0 l0))) /\
  (forall n x f, accepts (K1 N l0) [g0] n [x] [f] ->
     m_at true (K1 N l0) (heap w) o n [x] [f] = Ok (Ptr b (n * extent g0 l0 + place g0 x f))).
Proof.
  intros HA HH Hf Hs Hd. split.
  - intros n Hn. rewrite (data_pt_addr F h w aw a _ o n b) by assumption. rewrite Hs.
    do 3 f_equal. destruct g0 as [[? ?] ?]. cbn. lia.
  - intros n x f Hacc. rewrite <- Hs in Hacc.
    destruct (access_addr F h w aw a _ o n [x] [f] HA HH Hf ltac:(congruence) Hacc) as (b' & Hb' & ->).
    rewrite Hd in Hb'. injection Hb' as <-. rewrite Hs. do 2 f_equal.
    destruct g0 as [[? ?] ?]. cbn. lia.
Qed.

Lemma layout2 F h w aw a N l0 l1 o g0 g1 b :
  after F h w aw -> healthy aw a -> find w a = Some (K2 N l0 l1, o) -> m_size o = [g0; g1] -> o_data o = Ptr b 0 ->
  (forall n, 0 <= n < N ->
     m_data_pt true (K2 N l0 l1) (heap w) o n = Ok (Ptr b (n * (extent g0 l0 * extent g1 l1)))) /\
  (forall n x y f g, accepts (K2 N l0 l1) [g0; g1] n [x; y] [f; g] ->
     m_at true (K2 N l0 l1) (heap w) o n [x; y] [f; g] =
     Ok (Ptr b (n * (extent g0 l0 * extent g1 l1) + (place g0 x f * extent g1 l1 + place g1 y g)))).
Proof.
  intros HA HH Hf Hs Hd. split.
  - intros n Hn. rewrite (data_pt_addr F h w aw a _ o n b) by assumption. rewrite Hs.
    do 3 f_equal. destruct g0 as [[? ?] ?], g1 as [[? ?] ?]. cbn. lia.
  - intros n x y f g Hacc. rewrite <- Hs in Hacc.
    destruct (access_addr F h w aw a _ o n [x; y] [f; g] HA HH Hf ltac:(congruence) Hacc) as (b' & Hb' & ->).
    rewrite Hd in Hb'. injection Hb' as <-. rewrite Hs. do 2 f_equal.
    destruct g0 as [[? ?] ?], g1 as [[? ?] ?]. unfold slot_box, slot_of. cbn [k_locs combine map lin slots extent place fst snd]. ring.
Qed.

Lemma layout3 F h w aw a N l0 l1 l2 o g0 g1 g2 b :
  after F h w aw -> healthy aw a -> find w a = Some (K3 N l0 l1 l2, o) -> m_size o = [g0; g1; g2] -> o_data o = Ptr b 0 ->
  (forall n, 0 <= n < N ->
     m_data_pt true (K3 N l0 l1 l2) (heap w) o n = Ok (Ptr b (n * (extent g0 l0 * extent g1 l1 * extent g2 l2)))) /\
  (forall n x y z f g e, accepts (K3 N l0 l1 l2) [g0; g1; g2] n [x; y; z] [f; g; e] ->
     m_at true (K3 N l0 l1 l2) (heap w) o n [x; y; z] [f; g; e] =
     Ok (Ptr b (n * (extent g0 l0 * extent g1 l1 * extent g2 l2) +
                ((place g0 x f * extent g1 l1 + place g1 y g) * extent g2 l2 + place g2 z e)))).
Proof.
  intros HA HH Hf Hs Hd. split.
  - intros n Hn. rewrite (data_pt_addr F h w aw a _ o n b) by assumption. rewrite Hs.
    do 3 f_equal. destruct g0 as [[? ?] ?], g1 as [[? ?] ?], g2 as [[? ?] ?].
    unfold vol, slot_box. cbn [k_locs combine map slots extent fst snd zprod]. unfold zprod. cbn [fold_right]. ring.
  - intros n x y z f g e Hacc. rewrite <- Hs in Hacc.
    destruct (access_addr F h w aw a _ o n [x; y; z] [f; g; e] HA HH Hf ltac:(congruence) Hacc) as (b' & Hb' & ->).
    rewrite Hd in Hb'. injection Hb' as <-. rewrite Hs. do 2 f_equal.
    destruct g0 as [[? ?] ?], g1 as [[? ?] ?], g2 as [[? ?] ?].
    unfold slot_box, slot_of. cbn [k_locs combine map lin slots extent place fst snd]. ring.
Qed.

(** ** Which arrays can be left half made *)

Definition no_broken aw : Prop := forall a, healthy aw a.

Lemma first_fail_none F t c : (forall u, (t <= u < t + c)%nat -> F u = false) -> first_fail F t c = None.
Proof.
  revert t. induction c as [|c IH]; intros t H; cbn; [reflexivity|]. rewrite H by lia.
  rewrite IH; [reflexivity|]. intros u Hu. apply H. lia.
Qed.

Lemma first_fail_lt F t c j : first_fail F t c = Some j -> (j < c)%nat.
Proof.
  revert t j. induction c as [|c IH]; intros t j; cbn; [discriminate|].
  destruct (F t); [intros H; injection H as <-; lia|].
  destruct (first_fail F (S t) c) eqn:E; cbn; [|discriminate]. intros H. injection H as <-. apply IH in E. lia.
Qed.

Lemma a_alloc_healthy F t k gs c a r :
  (exists N l, k = K1 N l) \/ (forall u, F u = false) ->
  @a_alloc V F t k gs = (c, a, r) -> forall g nb, a <> ABroken g nb.
Proof.
  intros H E g nb. unfold a_alloc in E. destruct (bad_dim 0 gs); [injection E as _ <- _; discriminate|].
  destruct (vol (slot_box gs (k_locs k)) =? 0); [injection E as _ <- _; discriminate|].
  destruct (first_fail F t (length (k_locs k))) as [[|j]|] eqn:Ef; injection E as _ <- _; try discriminate.
  exfalso. destruct H as [(N & l & ->)|H].
  - apply first_fail_lt in Ef. cbn in Ef. lia.
  - rewrite first_fail_none in Ef by (intros; apply H). discriminate.
Qed.

(** An array is healthy if it is 1D or memory never runs out. *)
Definition safe_kind (F : nat -> bool) (k : kind) : Prop := (exists N l, k = K1 N l) \/ (forall u, F u = false).

Definition sound_arrs (F : nat -> bool) aw : Prop :=
  forall a k gs nb, safe_kind F k -> afind aw a <> Some (k, ABroken gs nb).

Lemma afind_put_cases t lk (l : list (option (kind * arr V))) a x a' y :
  afind (mkA t lk (put_nth l a x)) a' = Some y -> x = Some y \/ afind (mkA t lk l) a' = Some y.
Proof.
  destruct (Nat.lt_ge_cases a (length l)) as [H|H].
  - rewrite afind_put by assumption. destruct (Nat.eq_dec a' a); auto.
  - replace (put_nth l a x) with l; [auto|]. revert a H. induction l as [|z l IH]; intros [|a] H; cbn in *; try reflexivity; try lia.
    f_equal. apply IH; try lia; auto.
Qed.

Lemma afind_snoc_cases t lk (l : list (option (kind * arr V))) x a' y :
  afind (mkA t lk (l ++ [x])) a' = Some y -> x = Some y \/ afind (mkA t lk l) a' = Some y.
Proof. rewrite afind_snoc. destruct (Nat.eq_dec a' (length l)); auto. Qed.

Lemma Forall2_len {A B} (R : A -> B -> Prop) l l' : Forall2 R l l' -> length l = length l'.
Proof. induction 1; cbn; congruence. Qed.

Lemma a_read_plt_cases F aw a of_float of_double fs root log zone name nn :
  let r := fst (a_read_plt F aw a of_float of_double fs root log zone name nn) in
  r = aw \/ r = mkA (S (a_tick aw)) (a_leak aw) (arrs aw) \/
  exists k gs f g, afind aw a = Some (k, ALive gs f) /\
    r = mkA (S (a_tick aw)) (a_leak aw) (put_nth (arrs aw) a (Some (k, ALive gs g))) /\
    forall n q, (n =? nn) && match nth_error (fl_zones log) (Z.to_nat zone) with
                            | Some z => in_boxb (corner (rev (firstn (length q) (list3 (r_max (zl_real z)))))) q
                            | None => false
                            end = false -> g n q = f n q.
Proof.
  unfold a_read_plt. cbv zeta. destruct (afind aw a) as [[k x]|]; [|now left].
  destruct (k_N k <=? nn); [now left|]. destruct (nth_error (fl_zones log) _) as [z|]; [|now left].
  destruct (negb (sizes_inb _ _)); [now left|]. destruct (place_of _ _) as [vv|]; [|now left].
  destruct (nth_error (zl_data z) vv) as [d|]; [|now left]. destruct (fs _) as [b|]; [|now left].
  destruct (dl_pt d <? 0); [now left|]. right. destruct (F _); [now left|]. destruct (_ <? _); [now left|].
  destruct (negb _); [now left|]. destruct x as [|gs f|]; [now left| |now left]. right.
  do 4 eexists. split; [reflexivity|]. split; [reflexivity|]. intros n q N. cbv beta.
  destruct (n =? nn); [|reflexivity]. cbn [andb] in *. unfold log_sizes.
  destruct (in_boxb (corner (rev (firstn (length (k_locs k)) (list3 (r_max (zl_real z)))))) q) eqn:E; [|reflexivity].
  exfalso. pose proof (proj1 (in_boxb_iff _ _) E) as E'. apply Forall2_len in E'. unfold corner in E'.
  rewrite map_length, rev_length, firstn_length in E'.
  assert (X : length q = length (k_locs k)) by (rewrite <- E'; destruct k; reflexivity).
  rewrite X, E in N. discriminate N.
Qed.

Lemma astep_sound F aw c : sound_arrs F aw -> sound_arrs F (fst (astep F aw c)).
Proof.
  intros H a k gs nb Hk E.
  assert (Hput : forall t lk a0 x, afind (mkA t lk (put_nth (arrs aw) a0 x)) a = Some (k, ABroken gs nb) ->
                 x = Some (k, ABroken gs nb)).
  { intros t lk a0 x X. apply afind_put_cases in X. destruct X as [X|X]; [assumption|].
    destruct (H a k gs nb Hk). exact X. }
  assert (Hsn : forall t lk x, afind (mkA t lk (arrs aw ++ [x])) a = Some (k, ABroken gs nb) ->
                 x = Some (k, ABroken gs nb)).
  { intros t lk x X. apply afind_snoc_cases in X. destruct X as [X|X]; [assumption|].
    destruct (H a k gs nb Hk). exact X. }
  assert (Hal : forall t k' g c x r, @a_alloc V F t k' g = (c, x, r) -> Some (k', x) = Some (k, ABroken gs nb) -> False).
  { intros t k' g c0 x r Ea Eq. injection Eq as -> ->. eapply a_alloc_healthy in Ea; [apply Ea; reflexivity|exact Hk]. }
  assert (Hcopy : forall d s R r A a0, afind (fst (a_copy aw d s R r A a0)) a = Some (k, ABroken gs nb) -> False).
  { intros d s R r A a0 X. unfold a_copy in X.
    destruct (afind aw d) as [[k1 x1]|]; [|eapply H; eassumption].
    destruct (afind aw s) as [[k2 x2]|]; [|eapply H; eassumption].
    destruct (copy_error _ _ _ _ _ _); [eapply H; eassumption|].
    destruct x1, x2; try (eapply H; eassumption). apply Hput in X. discriminate. }
  destruct c; cbn [astep] in E.
  - destruct (k_N k0 =? 0); apply Hsn in E; discriminate.
  - destruct (k_N k0 =? 0); [apply Hsn in E; discriminate|].
    destruct (a_alloc F (a_tick aw) k0 gs0) as [[t x] r] eqn:Ea.
    destruct r; apply Hsn in E; try discriminate. eapply Hal; eassumption.
  - destruct (afind aw a0) as [[k1 [| |]]|]; try (eapply H; eassumption).
    destruct (a_alloc F (a_tick aw) k1 gs0) as [[t x] r] eqn:Ea. apply Hput in E. eapply Hal; eassumption.
  - destruct (bad_dim 0 gs0); [eapply H; eassumption|].
    destruct (afind aw a0) as [[k1 [| |]]|]; try (eapply H; eassumption);
    destruct (a_alloc F (a_tick aw) k1 gs0) as [[t x] r] eqn:Ea; apply Hput in E; eapply Hal; eassumption.
  - destruct (afind aw a0) as [[k1 [| |]]|]; try (eapply H; eassumption); apply Hput in E; discriminate.
  - apply Hput in E. discriminate.
  - destruct (afind aw a0) as [[k1 ?]|]; eapply H; eassumption.
  - destruct (afind aw a0) as [[k1 [| |]]|]; try (eapply H; eassumption);
      destruct (access_error _ _ _ _ _ _); eapply H; eassumption.
  - destruct (afind aw a0) as [[k1 [| |]]|]; try (eapply H; eassumption);
      destruct (access_error _ _ _ _ _ _); try (eapply H; eassumption). apply Hput in E. discriminate.
  - destruct (afind aw a0) as [[k1 x]|]; try (eapply H; eassumption).
    destruct (k_N k1 <=? n); [eapply H; eassumption|]. destruct x; eapply H; eassumption.
  - destruct (afind aw a0) as [[k1 x]|]; try (eapply H; eassumption).
    destruct (k_N k1 <=? n); [eapply H; eassumption|]. destruct x; try (eapply H; eassumption).
    apply Hput in E. discriminate.
  - eapply Hcopy; eassumption.
  - eapply Hcopy; eassumption.
  - eapply Hcopy; eassumption.
  - eapply Hcopy; eassumption.
  - destruct (a_read_plt_cases F aw a0 of_float of_double fs root log zone name nn) as [X|[X|(k1 & g1 & f1 & f2 & _ & X & _)]];
      rewrite X in E; [eapply H; eassumption|exact (H a k gs nb Hk E)|]. apply Hput in E. discriminate.
Qed.

Lemma aexec_sound F h aw : sound_arrs F aw -> sound_arrs F (fst (aexec F aw h)).
Proof.
  revert aw. induction h as [|c h IH]; intros aw H; cbn; [assumption|].
  pose proof (astep_sound F aw c H) as H1. destruct (astep F aw c) as [aw1 r]. specialize (IH aw1 H1).
  now destruct (aexec F aw1 h).
Qed.

Lemma start_sound F : sound_arrs F (@a_start V).
Proof. intros a k gs nb _ E. unfold afind, a_start in E. cbn in E. destruct a; discriminate. Qed.

Lemma healthy_always F h w aw a k o :
  after F h w aw -> find w a = Some (k, o) -> (exists N l, k = K1 N l) \/ (forall t, F t = false) -> healthy aw a.
Proof.
  intros HA Hf Hk k' gs nb E. pose proof HA as (_ & -> & _).
  destruct (after_find _ _ _ _ _ _ _ HA Hf) as (x & own & lk & Ha & _). rewrite Ha in E. injection E as <- ->.
  eapply aexec_sound; [apply start_sound|exact Hk|exact Ha].
Qed.

(** ** alloc *)

Lemma data_null k m o (x : arr V) bs : rep k m o x bs -> (o_data o = Null <-> x = AEmpty).
Proof.
  intros H. apply rep_data in H. destruct x; [tauto|..]; destruct H as [b Hb]; split; congruence.
Qed.

Lemma find_on_obj w a x (m' : mem V) a' : a' <> a -> find (mkWorld m' (set_obj (objs w) a x)) a' = find w a'.
Proof. intros N. unfold find, set_obj. cbn [objs]. now rewrite nth_error_upd_ne by auto. Qed.

Lemma find_on_obj_eq w a y x (m' : mem V) :
  find w a = Some y -> find (mkWorld m' (set_obj (objs w) a (Some x))) a = Some x.
Proof. intros H. unfold find, set_obj. cbn [objs]. rewrite nth_error_upd_eq; [reflexivity|]. eapply find_lt; eassumption. Qed.

Lemma alloc_occupied F h w aw a k o gs :
  after F h w aw -> find w a = Some (k, o) -> o_data o <> Null -> shape_arg k gs ->
  step true w (Alloc a gs) = Some (w, RExn EAllocNotEmpty).
Proof.
  intros HA Hf Hd Hg. destruct (after_find _ _ _ _ _ _ _ HA Hf) as (x & own & lk & Ha & HN & Hr & HR).
  cbn [step]. unfold on_obj. rewrite Hf.
  rewrite (alloc_full true k _ o x (own a)); [|apply Hg|assumption|intros ->; apply Hd; eapply data_null; eauto].
  now rewrite world_same.
Qed.

(** What alloc does on an empty array. *)
Lemma alloc_empty F h w aw a k o gs :
  after F h w aw -> find w a = Some (k, o) -> o_data o = Null -> shape_arg k gs ->
  let '(t, x, r) := a_alloc F (tick (heap w)) k gs in
  exists m' o' bs, step true w (Alloc a gs) = Some (mkWorld m' (set_obj (objs w) a (Some (k, o'))), r) /\
    rep k m' o' x bs /\ grown (heap w) m' bs /\ (x = AEmpty -> o' = o) /\ afind aw a = Some (k, AEmpty) /\
    tick m' = (tick (heap w) + t)%nat.
Proof.
  intros HA Hf Hd Hg. destruct (after_find _ _ _ _ _ _ _ HA Hf) as (x & own & lk & Ha & HN & Hr & HR).
  pose proof (proj1 (data_null _ _ _ _ _ Hr) Hd) as ->. destruct Hr as [He Hb].
  pose proof (alloc_ok true k (heap w) o gs HN Hg He) as HX. rewrite (r_fails _ _ _ _ _ HR) in HX.
  pose proof (@a_alloc_result V F (tick (heap w)) k gs) as HT.
  destruct (a_alloc F (tick (heap w)) k gs) as [[t x] r].
  destruct HX as (m' & o' & bs & E & H1 & H2 & H3 & H4).
  exists m', o', bs. cbn [step]. unfold on_obj. rewrite Hf, E. conjs; auto.
  destruct r; try contradiction; reflexivity.
Qed.

Lemma grown_nil (m m' : mem V) b : grown m m' [] -> block m' b = block m b.
Proof. intros H. eapply grown_other; [exact H|intros []]. Qed.

Lemma alloc_rejects F h w aw a k o gs d :
  after F h w aw -> find w a = Some (k, o) -> o_data o = Null -> shape_arg k gs -> bad_dim 0 gs = Some d ->
  exists w', step true w (Alloc a gs) = Some (w', RExn (EInZero d)) /\ objs w' = objs w /\
             forall b, block (heap w') b = block (heap w) b.
Proof.
  intros HA Hf Hd Hg Hb. pose proof (alloc_empty F h w aw a k o gs HA Hf Hd Hg) as H.
  unfold a_alloc in H. rewrite Hb in H. destruct H as (m' & o' & bs & E & Hr & Hgr & Ho & _).
  rewrite E. eexists. split; [reflexivity|]. rewrite Ho by reflexivity. cbn [objs heap]. split.
  - unfold set_obj. apply upd_same. now apply find_nth.
  - destruct Hr as [_ ->]. intros b. now apply grown_nil.
Qed.

Lemma alloc_nothing F h w aw a k o gs :
  after F h w aw -> find w a = Some (k, o) -> o_data o = Null -> shape_arg k gs -> bad_dim 0 gs = None ->
  vol (slot_box gs (k_locs k)) = 0 ->
  exists w', step true w (Alloc a gs) = Some (w', RDone) /\ objs w' = objs w /\
             forall b, block (heap w') b = block (heap w) b.
Proof.
  intros HA Hf Hd Hg Hb Hv. pose proof (alloc_empty F h w aw a k o gs HA Hf Hd Hg) as H.
  unfold a_alloc in H. rewrite Hb, Hv, Z.eqb_refl in H. destruct H as (m' & o' & bs & E & Hr & Hgr & Ho & _).
  rewrite E. eexists. split; [reflexivity|]. rewrite Ho by reflexivity. cbn [objs heap]. split.
  - unfold set_obj. apply upd_same. now apply find_nth.
  - destruct Hr as [_ ->]. intros b. now apply grown_nil.
Qed.

(** A reference for every legal coordinate, in state [m]. *)
Lemma rep_access k m o gs (f : content V) bs n q fl :
  kok k -> rep k m o (ALive gs f) bs -> accepts k gs n q fl ->
  exists p, m_at true k m o n q fl = Ok p /\ fetch m p = Ok (f n (slot_of q fl)).
Proof.
  intros HN Hr [Hn Hok]. destruct (dims_ok_lengths _ _ _ _ Hok) as (L1 & L2 & L3).
  pose proof Hr as (R1 & R2 & R3 & R4). destruct R1 as (R1 & R1' & R1'').
  pose proof (dims_ok_int _ _ _ _ R1' Hok) as Hint.
  eexists. rewrite (at_live k m o gs f bs) by (assumption || lia).
  rewrite (proj1 (accepts_iff k gs n q fl L1 L2 L3 ltac:(lia))) by (split; assumption).
  split; [reflexivity|]. apply fetch_ok with (N := k_N k); auto. now apply slot_of_in.
Qed.

Lemma alloc_succeeds F h w aw a k o gs :
  after F h w aw -> find w a = Some (k, o) -> o_data o = Null -> shape_arg k gs -> bad_dim 0 gs = None ->
  vol (slot_box gs (k_locs k)) <> 0 -> memory_for F w (length (k_locs k)) ->
  exists w' o', step true w (Alloc a gs) = Some (w', RDone) /\
    find w' a = Some (k, o') /\ m_size o' = gs /\ o_data o' <> Null /\
    (forall n q fl, accepts k gs n q fl ->
       exists p, m_at true k (heap w') o' n q fl = Ok p /\ fetch (heap w') p = Ok None) /\
    (forall a', a' <> a -> find w' a' = find w a') /\
    (forall b cs, block (heap w) b = Some cs -> block (heap w') b = Some cs).
Proof.
  intros HA Hf Hd Hg Hb Hv HM. pose proof (alloc_empty F h w aw a k o gs HA Hf Hd Hg) as H.
  unfold a_alloc in H. rewrite Hb in H. apply Z.eqb_neq in Hv. rewrite Hv, first_fail_none in H by exact HM.
  destruct (after_find _ _ _ _ _ _ _ HA Hf) as (x0 & own & lk & Ha & HN & _).
  destruct H as (m' & o' & bs & E & Hr & Hgr & Ho & _). exists (mkWorld m' (set_obj (objs w) a (Some (k, o')))), o'.
  conjs; auto.
  - eapply find_on_obj_eq; eassumption.
  - now rewrite (rep_size _ _ _ _ _ Hr).
  - intros X. apply (data_null _ _ _ _ _ Hr) in X. discriminate.
  - intros n q fl Hacc. exact (rep_access k m' o' gs _ bs n q fl HN Hr Hacc).
  - intros a' N. now apply find_on_obj.
  - intros b cs Hc. cbn [heap]. rewrite (grown_other _ _ _ _ Hgr); [assumption|].
    intros Hi. apply (grown_fresh _ _ _ _ Hgr) in Hi. apply block_lt in Hc. lia.
Qed.

(** ** Memory exhaustion *)

Lemma alloc_no_memory F h w aw a k o gs :
  after F h w aw -> find w a = Some (k, o) -> o_data o = Null -> shape_arg k gs -> bad_dim 0 gs = None ->
  vol (slot_box gs (k_locs k)) <> 0 -> F (tick (heap w)) = true ->
  exists w', step true w (Alloc a gs) = Some (w', RExn ENoMem) /\ objs w' = objs w /\
             forall b, block (heap w') b = block (heap w) b.
Proof.
  intros HA Hf Hd Hg Hb Hv HM. pose proof (alloc_empty F h w aw a k o gs HA Hf Hd Hg) as H.
  unfold a_alloc in H. rewrite Hb in H. apply Z.eqb_neq in Hv. rewrite Hv in H.
  assert (Ef : first_fail F (tick (heap w)) (length (k_locs k)) = Some O) by (destruct k; cbn; now rewrite HM).
  rewrite Ef in H. destruct H as (m' & o' & bs & E & Hr & Hgr & Ho & _).
  rewrite E. eexists. split; [reflexivity|]. rewrite Ho by reflexivity. cbn [objs heap]. split.
  - unfold set_obj. apply upd_same. now apply find_nth.
  - destruct Hr as [_ ->]. intros b. now apply grown_nil.
Qed.

(** 2D and 3D: a later request fails. *)
Lemma alloc_late_failure F h w aw a k o gs j :
  after F h w aw -> find w a = Some (k, o) -> o_data o = Null -> shape_arg k gs -> bad_dim 0 gs = None ->
  vol (slot_box gs (k_locs k)) <> 0 ->
  (0 < j < length (k_locs k))%nat -> (forall i, (i < j)%nat -> F (tick (heap w) + i)%nat = false) ->
  F (tick (heap w) + j)%nat = true ->
  exists w' o', step true w (Alloc a gs) = Some (w', RExn ENoMem) /\ find w' a = Some (k, o') /\
    o_data o' <> Null /\ m_size o' = gs /\ length (owned o') = j /\
    (forall b, In b (owned o') -> block (heap w') b <> None).
Proof.
  intros HA Hf Hd Hg Hb Hv Hj H0 H1. pose proof (alloc_empty F h w aw a k o gs HA Hf Hd Hg) as H.
  unfold a_alloc in H. rewrite Hb in H. apply Z.eqb_neq in Hv. rewrite Hv in H.
  assert (Ef : first_fail F (tick (heap w)) (length (k_locs k)) = Some j).
  { revert Hj H0 H1. generalize (tick (heap w)), (length (k_locs k)). clear. intros t c [_ Hj]. revert t c Hj.
    induction j as [|j IH]; intros t [|c] Hj H0 H1; try lia; cbn.
    - rewrite Nat.add_0_r in H1. now rewrite H1.
    - pose proof (H0 O ltac:(lia)) as X. rewrite Nat.add_0_r in X. rewrite X.
      rewrite (IH (S t) c ltac:(lia)); [reflexivity|..].
      + intros i Hi. replace (S t + i)%nat with (t + S i)%nat by lia. apply H0. lia.
      + replace (S t + j)%nat with (t + S j)%nat by lia. exact H1. }
  rewrite Ef in H. destruct j as [|j]; [lia|].
  destruct H as (m' & o' & bs & E & Hr & Hgr & _). exists (mkWorld m' (set_obj (objs w) a (Some (k, o')))), o'.
  assert (Ho : owned o' = bs).
  { clear - Hr. destruct Hr as (_ & _ & H & _).
    destruct k, o', gs as [|g0 [|g1 [|g2 [|g3 gs]]]], bs as [|b0 [|b1 [|b2 bs]]]; cbn in H; try contradiction;
      unfold brk2, brk3 in H; cbn [owned];
      repeat match goal with H : _ /\ _ |- _ => destruct H end;
      repeat match goal with H : pd2_data _ = _ |- _ => rewrite H | H : pd2_pt1 _ = _ |- _ => rewrite H
             | H : pd3_data _ = _ |- _ => rewrite H | H : pd3_pt1 _ = _ |- _ => rewrite H | H : pd3_pt2 _ = _ |- _ => rewrite H end;
      reflexivity. }
  conjs; auto.
  - eapply find_on_obj_eq; eassumption.
  - intros X. apply (data_null _ _ _ _ _ Hr) in X. discriminate.
  - now rewrite (rep_size _ _ _ _ _ Hr).
  - rewrite Ho. apply Hr.
  - rewrite Ho. intros b Hi. eapply rep_live; eassumption.
Qed.

(** ** Ownership *)

Lemma rep_owned k m o (x : arr V) bs : rep k m o x bs -> owned o = bs.
Proof.
  destruct x as [|gs f|gs nb].
  - intros [H ->]. destruct k, o; cbn in H; try contradiction; unfold emp1, emp2, emp3 in H; cbn [owned];
      repeat match goal with H : _ /\ _ |- _ => destruct H end;
      repeat match goal with H : _ = Null |- _ => rewrite H end; reflexivity.
  - intros (_ & _ & H & _).
    destruct k, o, gs as [|g0 [|g1 [|g2 [|g3 gs]]]], bs as [|b0 [|b1 [|b2 [|b3 bs]]]]; cbn in H; try contradiction;
      try destruct g0 as [[? ?] ?]; unfold liv1, liv2, liv3 in H; cbn zeta in H; cbn [owned];
      repeat match goal with H : _ /\ _ |- _ => destruct H end;
      repeat match goal with H : _ = Ptr _ 0 |- _ => rewrite H end; reflexivity.
  - intros (_ & _ & H & _).
    destruct k, o, gs as [|g0 [|g1 [|g2 [|g3 gs]]]], bs as [|b0 [|b1 [|b2 bs]]]; cbn in H; try contradiction;
      unfold brk2, brk3 in H; cbn [owned];
      repeat match goal with H : _ /\ _ |- _ => destruct H end;
      repeat match goal with H : _ = Ptr _ 0 |- _ => rewrite H | H : _ = Null |- _ => rewrite H end; reflexivity.
Qed.

(** ** clear *)

Lemma clear_frees F h w aw a k o :
  after F h w aw -> find w a = Some (k, o) -> o_data o <> Null ->
  exists w' o', step true w (Clear a) = Some (w', RDone) /\
    find w' a = Some (k, o') /\ m_size o' = map (fun _ => (0, 0, 0)) (k_locs k) /\ o_data o' = Null /\ owned o' = [] /\
    (forall a', a' <> a -> find w' a' = find w a') /\
    (forall b, In b (owned o) -> block (heap w) b <> None /\ block (heap w') b = None) /\
    (forall b, ~ In b (owned o) -> block (heap w') b = block (heap w) b).
Proof.
  intros HA Hf Hd. destruct (after_find _ _ _ _ _ _ _ HA Hf) as (x & own & lk & Ha & HN & Hr & HR).
  assert (Hx : x <> AEmpty) by (intros ->; apply Hd; eapply data_null; eauto).
  destruct (clear_ok k (heap w) o x (own a) HN Hr Hx) as (o' & E & He).
  assert (Hr' : rep k (kill (heap w) (own a)) o' (AEmpty : arr V) []) by (split; [exact He|reflexivity]).
  exists (mkWorld (kill (heap w) (own a)) (set_obj (objs w) a (Some (k, o')))), o'.
  rewrite (rep_owned _ _ _ _ _ Hr). cbn [step]. unfold on_obj. rewrite Hf, E. conjs; auto.
  - eapply find_on_obj_eq; eassumption.
  - now rewrite (rep_size _ _ _ _ _ Hr').
  - now apply (data_null _ _ _ _ _ Hr').
  - exact (rep_owned _ _ _ _ _ Hr').
  - intros a' N. now apply find_on_obj.
  - intros b Hb. split; [eapply rep_live; eassumption|]. cbn [heap]. rewrite kill_block.
    destruct (in_dec Nat.eq_dec b (own a)); [reflexivity|contradiction].
  - intros b Hb. cbn [heap]. rewrite kill_block.
    destruct (in_dec Nat.eq_dec b (own a)); [contradiction|reflexivity].
Qed.

Lemma clear_on_empty F h w aw a k o :
  after F h w aw -> find w a = Some (k, o) -> o_data o = Null ->
  step true w (Clear a) = Some (w, RExn EClearEmpty).
Proof.
  intros HA Hf Hd. destruct (after_find _ _ _ _ _ _ _ HA Hf) as (x & own & lk & Ha & HN & Hr & HR).
  pose proof (proj1 (data_null _ _ _ _ _ Hr) Hd) as ->. cbn [step]. unfold on_obj. rewrite Hf.
  rewrite clear_empty by apply Hr. now rewrite world_same.
Qed.

(** An empty array refuses every access. *)
Lemma empty_refuses F h w aw a k o n q fl :
  after F h w aw -> find w a = Some (k, o) -> o_data o = Null ->
  length q = length (k_locs k) -> length fl = length (k_locs k) ->
  m_at true k (heap w) o n q fl = Err ENoData.
Proof.
  intros HA Hf Hd Hq Hl. destruct (after_find _ _ _ _ _ _ _ HA Hf) as (x & own & lk & Ha & HN & Hr & HR).
  pose proof (proj1 (data_null _ _ _ _ _ Hr) Hd) as ->. apply at_empty; auto. apply Hr.
Qed.

(** ** realloc *)

Lemma realloc_refused F h w aw a k o gs :
  after F h w aw -> find w a = Some (k, o) -> shape_arg k gs ->
  (forall d, bad_dim 0 gs = Some d -> step true w (Realloc a gs) = Some (w, RExn (EInZero d))) /\
  (bad_dim 0 gs = None -> o_data o = Null -> step true w (Realloc a gs) = Some (w, RExn EClearEmpty)).
Proof.
  intros HA Hf Hg. destruct (after_find _ _ _ _ _ _ _ HA Hf) as (x & own & lk & Ha & HN & Hr & HR).
  cbn [step]. unfold on_obj. rewrite Hf.
  rewrite realloc_eq by (assumption || exact (rep_class _ _ _ _ _ Hr)). split.
  - intros d ->. now rewrite world_same.
  - intros -> Hd. pose proof (proj1 (data_null _ _ _ _ _ Hr) Hd) as ->. unfold bind.
    rewrite clear_empty by apply Hr. now rewrite world_same.
Qed.

(** realloc is clear followed by alloc, seen from outside as well. *)
Lemma realloc_is_clear_alloc F h w aw a k o gs :
  after F h w aw -> find w a = Some (k, o) -> shape_arg k gs -> bad_dim 0 gs = None -> o_data o <> Null ->
  exists w1 w2 r, step true w (Clear a) = Some (w1, RDone) /\ step true w1 (Alloc a gs) = Some (w2, r) /\
                  step true w (Realloc a gs) = Some (w2, r).
Proof.
  intros HA Hf Hg Hb Hd. destruct (after_find _ _ _ _ _ _ _ HA Hf) as (x & own & lk & Ha & HN & Hr & HR).
  assert (Hx : x <> AEmpty) by (intros ->; apply Hd; eapply data_null; eauto).
  destruct (clear_ok k (heap w) o x (own a) HN Hr Hx) as (o' & E & He).
  cbn [step]. unfold on_obj at 1 3. rewrite Hf, E.
  rewrite realloc_eq by (assumption || exact (rep_class _ _ _ _ _ Hr)). rewrite Hb. unfold bind. rewrite E.
  pose proof (alloc_ok true k (kill (heap w) (own a)) o' gs HN Hg He) as HX.
  pose proof (@a_alloc_result V (fails (kill (heap w) (own a))) (tick (kill (heap w) (own a))) k gs) as HT.
  destruct (a_alloc _ _ k gs) as [[t y] r]. destruct HX as (m' & o2 & bs & E2 & _).
  exists (mkWorld (kill (heap w) (own a)) (set_obj (objs w) a (Some (k, o')))),
         (mkWorld m' (set_obj (objs w) a (Some (k, o2)))), r.
  split; [reflexivity|]. unfold on_obj. rewrite (find_on_obj_eq w a (k, o)) by assumption. cbn [heap objs]. rewrite E2.
  assert (U : forall y z, set_obj (set_obj (objs w) a y) a z = set_obj (objs w) a z).
  { intros y0 z. unfold set_obj. generalize (objs w). clear. intros l. revert a.
    induction l as [|c l IH]; intros [|a]; cbn; try reflexivity. now rewrite IH. }
  destruct r; try contradiction; cbn [outcome]; rewrite U; split; reflexivity.
Qed.

Lemma realloc_run F h w aw a k o gs :
  after F h w aw -> find w a = Some (k, o) -> o_data o <> Null -> shape_arg k gs -> bad_dim 0 gs = None ->
  let '(t, x, r) := a_alloc F (tick (heap w)) k gs in
  exists m' o' bs, step true w (Realloc a gs) = Some (mkWorld m' (set_obj (objs w) a (Some (k, o'))), r) /\
    rep k m' o' x bs /\ grown (kill (heap w) (owned o)) m' bs.
Proof.
  intros HA Hf Hd Hg Hb. destruct (after_find _ _ _ _ _ _ _ HA Hf) as (x & own & lk & Ha & HN & Hr & HR).
  assert (Hx : x <> AEmpty) by (intros ->; apply Hd; eapply data_null; eauto).
  destruct (clear_ok k (heap w) o x (own a) HN Hr Hx) as (o' & E & He).
  rewrite (rep_owned _ _ _ _ _ Hr).
  pose proof (alloc_ok true k (kill (heap w) (own a)) o' gs HN Hg He) as HX.
  pose proof (@a_alloc_result V (fails (kill (heap w) (own a))) (tick (kill (heap w) (own a))) k gs) as HT.
  rewrite kill_fails, kill_tick, (r_fails _ _ _ _ _ HR) in HX, HT.
  destruct (a_alloc F _ k gs) as [[t y] r]. destruct HX as (m' & o2 & bs & E2 & Hr2 & Hgr & _).
  exists m', o2, bs. split; [|split; assumption].
  cbn [step]. unfold on_obj. rewrite Hf. rewrite realloc_eq by (assumption || exact (rep_class _ _ _ _ _ Hr)).
  rewrite Hb. unfold bind. rewrite E, E2. destruct r; try contradiction; reflexivity.
Qed.

Lemma realloc_succeeds F h w aw a k o gs :
  after F h w aw -> find w a = Some (k, o) -> o_data o <> Null -> shape_arg k gs -> bad_dim 0 gs = None ->
  vol (slot_box gs (k_locs k)) <> 0 -> memory_for F w (length (k_locs k)) ->
  exists w' o', step true w (Realloc a gs) = Some (w', RDone) /\
    find w' a = Some (k, o') /\ m_size o' = gs /\ o_data o' <> Null /\
    (forall n q fl, accepts k gs n q fl ->
       exists p, m_at true k (heap w') o' n q fl = Ok p /\ fetch (heap w') p = Ok None) /\
    (forall a', a' <> a -> find w' a' = find w a') /\
    (forall b, In b (owned o) -> block (heap w') b = None) /\
    (forall b cs, ~ In b (owned o) -> block (heap w) b = Some cs -> block (heap w') b = Some cs).
Proof.
  intros HA Hf Hd Hg Hb Hv HM. pose proof (realloc_run F h w aw a k o gs HA Hf Hd Hg Hb) as H.
  unfold a_alloc in H. rewrite Hb in H. apply Z.eqb_neq in Hv. rewrite Hv, first_fail_none in H by exact HM.
  destruct (after_find _ _ _ _ _ _ _ HA Hf) as (x0 & own & lk & Ha & HN & Hr0 & HR).
  destruct H as (m' & o' & bs & E & Hr & Hgr). exists (mkWorld m' (set_obj (objs w) a (Some (k, o')))), o'.
  pose proof (rep_owned _ _ _ _ _ Hr0) as Ho.
  conjs; auto.
  - eapply find_on_obj_eq; eassumption.
  - now rewrite (rep_size _ _ _ _ _ Hr).
  - intros X. apply (data_null _ _ _ _ _ Hr) in X. discriminate.
  - intros n q fl Hacc. exact (rep_access k m' o' gs _ bs n q fl HN Hr Hacc).
  - intros a' N. now apply find_on_obj.
  - intros b Hi. cbn [heap]. destruct Hgr as (_ & _ & _ & Hgr). rewrite Hgr.
    + rewrite kill_block. destruct (in_dec Nat.eq_dec b (owned o)); [reflexivity|contradiction].
    + rewrite kill_blocks. rewrite Ho in Hi. assert (L : block (heap w) b <> None) by (eapply rep_live; eassumption).
      destruct (block (heap w) b) eqn:EE; [|contradiction]. now apply block_lt in EE.
  - intros b cs Hn Hc. cbn [heap]. destruct Hgr as (_ & _ & _ & Hgr). rewrite Hgr.
    + rewrite kill_block. destruct (in_dec Nat.eq_dec b (owned o)); [contradiction|assumption].
    + rewrite kill_blocks. now apply block_lt in Hc.
Qed.

Lemma realloc_loses F h w aw a k o gs :
  after F h w aw -> find w a = Some (k, o) -> o_data o <> Null -> shape_arg k gs -> bad_dim 0 gs = None ->
  vol (slot_box gs (k_locs k)) = 0 \/ F (tick (heap w)) = true ->
  exists w' o' r, step true w (Realloc a gs) = Some (w', r) /\
    r = (if vol (slot_box gs (k_locs k)) =? 0 then RDone else RExn ENoMem) /\
    find w' a = Some (k, o') /\ m_size o' = map (fun _ => (0, 0, 0)) (k_locs k) /\ o_data o' = Null /\
    (forall a', a' <> a -> find w' a' = find w a') /\
    (forall b, In b (owned o) -> block (heap w') b = None) /\
    (forall b, ~ In b (owned o) -> block (heap w') b = block (heap w) b).
Proof.
  intros HA Hf Hd Hg Hb Hv. pose proof (realloc_run F h w aw a k o gs HA Hf Hd Hg Hb) as H.
  destruct (after_find _ _ _ _ _ _ _ HA Hf) as (x0 & own & lk & Ha & HN & Hr0 & HR).
  pose proof (rep_owned _ _ _ _ _ Hr0) as Ho.
  set (r := if vol (slot_box gs (k_locs k)) =? 0 then RDone else RExn ENoMem : result V).
  assert (Ea : exists t, a_alloc F (tick (heap w)) k gs = (t, AEmpty, r)).
  { unfold a_alloc, r. rewrite Hb. destruct (vol _ =? 0) eqn:Ev; [eauto|].
    zcmp. destruct Hv as [Hv|Hv]; [contradiction|].
    replace (first_fail F (tick (heap w)) (length (k_locs k))) with (Some O) by (destruct k; cbn; now rewrite Hv). eauto. }
  destruct Ea as [t Ea]. rewrite Ea in H.
  destruct H as (m' & o' & bs & E & Hr & Hgr). exists (mkWorld m' (set_obj (objs w) a (Some (k, o')))), o', r.
  pose proof Hr as [_ ->].
  assert (HB : forall b, block m' b = block (kill (heap w) (owned o)) b) by (intros b; now apply grown_nil).
  conjs; auto.
  - eapply find_on_obj_eq; eassumption.
  - now rewrite (rep_size _ _ _ _ _ Hr).
  - now apply (data_null _ _ _ _ _ Hr).
  - intros a' N. now apply find_on_obj.
  - intros b Hi. cbn [heap]. rewrite HB, kill_block. destruct (in_dec Nat.eq_dec b (owned o)); [reflexivity|contradiction].
  - intros b Hi. cbn [heap]. rewrite HB, kill_block. destruct (in_dec Nat.eq_dec b (owned o)); [contradiction|reflexivity].
Qed.

(** ** Ownership over any history *)

Lemma in_all_owned w b : In b (all_owned w) <-> exists a k o, find w a = Some (k, o) /\ In b (owned o).
Proof.
  unfold all_owned. rewrite in_flat_map. split.
  - intros (x & Hx & Hb). destruct x as [[k o]|]; [|contradiction].
    apply In_nth_error in Hx. destruct Hx as [a Hx]. exists a, k, o. split; [unfold find; now rewrite Hx|assumption].
  - intros (a & k & o & Hf & Hb). exists (Some (k, o)). split; [|assumption].
    apply find_nth in Hf. eapply nth_error_In; eassumption.
Qed.

Lemma rel_owned F w aw own lk a : rel F w aw own lk -> 
  own a = match find w a with Some (_, o) => owned o | None => [] end.
Proof.
  intros HR. pose proof (r_arr _ _ _ _ _ HR a) as Ha. unfold entry_ok in Ha.
  destruct (find w a) as [[k o]|], (afind aw a) as [[k' x]|]; try contradiction; [|assumption].
  symmetry. eapply rep_owned. apply Ha.
Qed.

Lemma flat_map_nodup {A B} (g : A -> list B) l :
  (forall i x, nth_error l i = Some x -> NoDup (g x)) ->
  (forall i j x y b, nth_error l i = Some x -> nth_error l j = Some y -> In b (g x) -> In b (g y) -> i = j) ->
  NoDup (flat_map g l).
Proof.
  induction l as [|x l IH]; intros H1 H2; cbn; [constructor|].
  assert (IH' : NoDup (flat_map g l)).
  { apply IH; [intros i y Hy; exact (H1 (S i) y Hy)|].
    intros i j y z b Hy Hz Hb Hb'. assert (S i = S j) by exact (H2 (S i) (S j) y z b Hy Hz Hb Hb'). lia. }
  assert (HX : NoDup (g x)) by exact (H1 O x eq_refl).
  assert (HD : forall b, In b (g x) -> ~ In b (flat_map g l)).
  { intros b Hb Hi. apply in_flat_map in Hi. destruct Hi as (y & Hy & Hb').
    apply In_nth_error in Hy. destruct Hy as [j Hj].
    assert (O = S j) by exact (H2 O (S j) x y b eq_refl Hj Hb Hb'). lia. }
  clear - HX HD IH'. induction HX as [|b l' Hb HX IH2]; [exact IH'|]. cbn. constructor.
  - intros Hi. apply in_app_iff in Hi. destruct Hi as [Hi|Hi]; [contradiction|]. apply (HD b); [now left|assumption].
  - apply IH2. intros c Hc. apply HD. now right.
Qed.

Lemma ownership F h w aw :
  after F h w aw ->
  NoDup (all_owned w) /\
  (forall b, In b (all_owned w) -> block (heap w) b <> None) /\
  exists lost, NoDup lost /\ length lost = a_leak aw /\
    forall b, block (heap w) b <> None <-> In b (all_owned w) \/ In b lost.
Proof.
  intros HA. destruct (after_rel _ _ _ _ HA) as (own & lk & HR).
  assert (HO : forall b, In b (all_owned w) <-> exists a, In b (own a)).
  { intros b. rewrite in_all_owned. split.
    - intros (a & k & o & Hf & Hb). exists a. rewrite (rel_owned _ _ _ _ _ a HR), Hf. exact Hb.
    - intros [a Hb]. rewrite (rel_owned _ _ _ _ _ a HR) in Hb. destruct (find w a) as [[k o]|] eqn:E; [|contradiction].
      exists a, k, o. auto. }
  assert (HL : forall b, In b (all_owned w) -> block (heap w) b <> None).
  { intros b Hb. apply HO in Hb. destruct Hb as [a Hb]. exact (entry_live F _ _ _ _ b (r_arr _ _ _ _ _ HR a) Hb). }
  split; [|split; [exact HL|]].
  - apply flat_map_nodup.
    + intros i x Hx. destruct x as [[k o]|]; [|constructor].
      pose proof (r_arr _ _ _ _ _ HR i) as Hi. unfold entry_ok, find in Hi. rewrite Hx in Hi.
      destruct (afind aw i) as [[k' y]|]; [|contradiction]. destruct Hi as (_ & _ & Hr).
      rewrite (rep_owned _ _ _ _ _ Hr). eapply rep_nodup; eassumption.
    + intros i j x y b Hx Hy Hbx Hby. apply (r_disj _ _ _ _ _ HR i j b).
      * rewrite (rel_owned _ _ _ _ _ i HR). unfold find. rewrite Hx. destruct x as [[k o]|]; [assumption|contradiction].
      * rewrite (rel_owned _ _ _ _ _ j HR). unfold find. rewrite Hy. destruct y as [[k o]|]; [assumption|contradiction].
  - exists lk. split; [apply (r_lkd _ _ _ _ _ HR)|]. split; [apply (r_leak _ _ _ _ _ HR)|].
    intros b. rewrite HO. split; [apply (r_live _ _ _ _ _ HR)|].
    intros [Hb|Hb]; [apply HL; now apply HO|now apply (r_lkl _ _ _ _ _ HR)].
Qed.

Lemma astep_leak F aw c :
  may_leak c = false \/ (forall t, F t = false) -> a_leak (fst (astep F aw c)) = a_leak aw.
Proof.
  intros H.
  assert (Hcopy : forall d s R r A a0, a_leak (fst (a_copy aw d s R r A a0)) = a_leak aw).
  { intros. unfold a_copy. destruct (afind aw d) as [[k1 x1]|]; [|reflexivity].
    destruct (afind aw s) as [[k2 x2]|]; [|reflexivity]. destruct (copy_error _ _ _ _ _ _); [reflexivity|].
    now destruct x1, x2. }
  destruct c; cbn [astep]; try apply Hcopy;
    try (match goal with |- context [a_read_plt ?F ?w ?a ?p ?q ?f ?r ?l ?z ?n ?m] =>
           destruct (a_read_plt_cases F w a p q f r l z n m) as [X|[X|(k1 & g1 & f1 & f2 & _ & X & _)]]; now rewrite X end);
    repeat match goal with
    | |- context [match ?x with _ => _ end] =>
        match x with
        | a_alloc _ _ _ _ => let E := fresh "Ea" in destruct x as [[? ?] ?] eqn:E
        | _ => destruct x
        end
    end; try reflexivity; cbn [fst a_leak].
  all: exfalso; eapply a_alloc_healthy in Ea; [apply Ea; reflexivity|].
  all: destruct H as [H|H]; [left|right; exact H]; destruct k; cbn in H; try discriminate; eauto.
Qed.

Lemma no_leak F h w aw :
  after F h w aw -> (forall c, In c h -> may_leak c = false) \/ (forall t, F t = false) -> a_leak aw = O.
Proof.
  intros (_ & -> & _) H.
  assert (G : forall aw0, a_leak (fst (aexec F aw0 h)) = a_leak aw0).
  { induction h as [|c h IH]; intros aw0; cbn; [reflexivity|].
    pose proof (astep_leak F aw0 c) as Hs. destruct (astep F aw0 c) as [aw1 r]. cbn [fst] in Hs.
    assert (IH' : a_leak (fst (aexec F aw1 h)) = a_leak aw1).
    { apply IH. destruct H as [H|H]; [left; intros c' Hc; apply H; now right|now right]. }
    destruct (aexec F aw1 h). cbn [fst] in *. rewrite IH'. apply Hs.
    destruct H as [H|H]; [left; apply H; now left|now right]. }
  apply G.
Qed.

Lemma all_destroyed F h w aw :
  after F h w aw -> a_leak aw = O -> (forall a, find w a = None) -> forall b, block (heap w) b = None.
Proof.
  intros HA HL HN b. destruct (ownership F h w aw HA) as (_ & _ & lost & _ & HE & Hb).
  destruct (block (heap w) b) eqn:E; [|reflexivity].
  assert (X : block (heap w) b <> None) by congruence. apply Hb in X. destruct X as [X|X].
  - apply in_all_owned in X. destruct X as (a & k & o & Hf & _). rewrite HN in Hf. discriminate.
  - rewrite HL in HE. destruct lost; [contradiction|discriminate].
Qed.

(** ** The last write is read back *)

Lemma zs_eqb_refl q : zs_eqb q q = true.
Proof. now apply zs_eqb_eq. Qed.

Definition holds_val (aw : aworld V) (a : nat) (k : kind) (gs : list dim_shape) (n : Z) (s : list Z) (v : V) : Prop :=
  exists f, afind aw a = Some (k, ALive gs f) /\ f n s = Some v.

Lemma afind_put_other aw t lk a x a' : a' <> a -> afind (mkA t lk (put_nth (arrs aw) a x)) a' = afind aw a'.
Proof.
  intros N. unfold afind. cbn [arrs]. rewrite put_nth_upd, nth_error_upd_ne by auto. reflexivity.
Qed.

Lemma afind_put_same aw t lk a y x : afind aw a = Some y -> afind (mkA t lk (put_nth (arrs aw) a x)) a = x.
Proof.
  intros H. unfold afind in *. cbn [arrs]. rewrite put_nth_upd, nth_error_upd_eq.
  - now destruct x as [[? ?]|].
  - apply nth_error_Some. destruct (nth_error (arrs aw) a); congruence.
Qed.

Lemma afind_snoc_old aw t lk x a y : afind aw a = Some y -> afind (mkA t lk (arrs aw ++ [x])) a = Some y.
Proof.
  intros H. rewrite afind_snoc. destruct (Nat.eq_dec a (length (arrs aw))) as [->|N]; [|exact H].
  unfold afind in H. rewrite (proj2 (nth_error_None _ _)) in H by lia. discriminate.
Qed.

Lemma undisturbed_step F aw c a k gs n s v :
  holds_val aw a k gs n s v -> disturbs c a n s = false -> holds_val (fst (astep F aw c)) a k gs n s v.
Proof.
  intros (f & Ha & Hv) Hd.
  assert (Hcopy : forall d s' R r A a0, Nat.eqb d a = false -> holds_val (fst (a_copy aw d s' R r A a0)) a k gs n s v).
  { intros d s' R r A a0 Hne. apply Nat.eqb_neq in Hne. unfold a_copy.
    destruct (afind aw d) as [[k1 x1]|]; [|now exists f].
    destruct (afind aw s') as [[k2 x2]|]; [|now exists f].
    destruct (copy_error _ _ _ _ _ _); [now exists f|].
    destruct x1, x2; try (now exists f). exists f. split; [|assumption].
    cbn [fst]. unfold with_arr. rewrite afind_put_other by auto. assumption. }
  assert (HS : forall t lk x, holds_val (mkA t lk (arrs aw ++ [x])) a k gs n s v).
  { intros. exists f. split; [|assumption]. now apply afind_snoc_old. }
  assert (HP : forall t lk a0 x, a <> a0 -> holds_val (mkA t lk (put_nth (arrs aw) a0 x)) a k gs n s v).
  { intros. exists f. split; [|assumption]. now rewrite afind_put_other. }
  assert (H0 : holds_val aw a k gs n s v) by now exists f.
  destruct c; cbn [astep disturbs] in *; try (apply Hcopy; assumption).
  - destruct (k_N k0 =? 0); apply HS.
  - destruct (k_N k0 =? 0); [apply HS|]. destruct (a_alloc F (a_tick aw) k0 gs0) as [[t x] r]. destruct r; apply HS.
  - destruct (Nat.eq_dec a a0) as [<-|N].
    + rewrite Ha. exact H0.
    + destruct (afind aw a0) as [[k1 [| |]]|]; try exact H0.
      destruct (a_alloc F (a_tick aw) k1 gs0) as [[t x] r]. now apply HP.
  - apply Nat.eqb_neq in Hd. destruct (bad_dim 0 gs0); [exact H0|].
    destruct (afind aw a0) as [[k1 [| |]]|]; try exact H0;
      destruct (a_alloc F (a_tick aw) k1 gs0) as [[t x] r]; apply HP; auto.
  - apply Nat.eqb_neq in Hd. destruct (afind aw a0) as [[k1 [| |]]|]; try exact H0; apply HP; auto.
  - apply Nat.eqb_neq in Hd. apply HP; auto.
  - destruct (afind aw a0) as [[k1 ?]|]; exact H0.
  - destruct (afind aw a0) as [[k1 [| |]]|]; try exact H0; destruct (access_error _ _ _ _ _ _); exact H0.
  - destruct (Nat.eq_dec a a0) as [<-|N].
    + rewrite Ha. cbn [a_shape]. destruct (access_error _ _ _ _ _ _); [exact H0|].
      eexists. split; [cbn [fst]; unfold with_arr; erewrite afind_put_same by eassumption; reflexivity|].
      unfold put_at. rewrite Nat.eqb_refl in Hd. cbn [andb] in Hd.
      rewrite Z.eqb_sym. destruct (n0 =? n) eqn:E; cbn [andb] in *; [|assumption].
      destruct (zs_eqb s (slot_of q fl)) eqn:E2; [|assumption].
      apply zs_eqb_eq in E2. rewrite E2, zs_eqb_refl in Hd. discriminate.
    + destruct (afind aw a0) as [[k1 [| |]]|]; try exact H0; destruct (access_error _ _ _ _ _ _); try exact H0. now apply HP.
  - destruct (afind aw a0) as [[k1 x]|]; try exact H0. destruct (k_N k1 <=? n0); [exact H0|]. destruct x; exact H0.
  - apply Nat.eqb_neq in Hd. destruct (afind aw a0) as [[k1 x]|]; try exact H0.
    destruct (k_N k1 <=? n0); [exact H0|]. destruct x; try exact H0. apply HP; auto.
  - destruct (a_read_plt_cases F aw a0 of_float of_double fs root log zone name nn) as [X|[X|(k1 & g1 & f1 & f2 & Hf & X & Hg)]];
      rewrite X; [exact H0|now exists f|]. destruct (Nat.eq_dec a a0) as [<-|N]; [|now apply HP].
    rewrite Nat.eqb_refl in Hd. cbn [andb] in Hd. rewrite Z.eqb_sym in Hd.
    rewrite Ha in Hf. injection Hf as <- <- <-. exists f2. split; [|rewrite Hg; auto].
    rewrite afind_put_same with (y := (k, ALive gs f)); [reflexivity|assumption].
Qed.

Lemma undisturbed F h aw a k gs n s v :
  holds_val aw a k gs n s v -> (forall c, In c h -> disturbs c a n s = false) ->
  holds_val (fst (aexec F aw h)) a k gs n s v.
Proof.
  revert aw. induction h as [|c h IH]; intros aw H0 H; cbn; [assumption|].
  pose proof (undisturbed_step F aw c a k gs n s v H0 (H c (or_introl eq_refl))) as H1.
  destruct (astep F aw c) as [aw1 r]. cbn [fst] in H1.
  specialize (IH aw1 H1 (fun c' Hc => H c' (or_intror Hc))). now destruct (aexec F aw1 h).
Qed.

Lemma last_write F h1 h2 a k n q fl v q' fl' :
  legal_run F a_start (h1 ++ Write a n q fl v :: h2 ++ [Read a n q' fl']) ->
  snd (astep F (fst (aexec F a_start h1)) (Write a n q fl v)) = RDone ->
  (forall c, In c h2 -> disturbs c a n (slot_of q fl) = false) ->
  (forall x, afind (fst (aexec F a_start h1)) a = Some x -> fst x = k) ->
  flag_error 0 (k_locs k) fl' = None -> slot_of q' fl' = slot_of q fl ->
  exists w rs, exec true (start F) (h1 ++ Write a n q fl v :: h2 ++ [Read a n q' fl']) =
               Some (w, rs ++ [RVal (Some v)]).
Proof.
  intros HL HW HD HK HFl HS.
  destruct (after_exists F _ HL) as (w & _ & _ & rs & E). exists w.
  destruct (exec_sim F _ _ _ _ _ (rel_start F) HL) as (w' & own & lk & E' & _). rewrite E in E'. injection E' as <- ->.
  change (Write a n q fl v :: h2 ++ [Read a n q' fl']) with ((Write a n q fl v :: h2) ++ [Read a n q' fl']) in *.
  rewrite app_assoc in *.
  exists (snd (aexec F a_start (h1 ++ Write a n q fl v :: h2))). rewrite E, aexec_app. cbn [snd]. do 3 f_equal.
  apply legal_run_app in HL. destruct HL as [HL [HLr _]].
  set (aw2 := fst (aexec F a_start (h1 ++ Write a n q fl v :: h2))) in *.
  apply legal_run_app in HL. destruct HL as [HL1 [HL _]].
  set (aw1 := fst (aexec F a_start h1)) in *.
  assert (HA1 : exists gs, holds_val (fst (astep F aw1 (Write a n q fl v))) a k gs n (slot_of q fl) v /\
                length gs = length (k_locs k) /\ access_error (k_N k) (k_locs k) gs n q fl = None /\
                length q = length (k_locs k) /\ length fl = length (k_locs k)).
  { cbn [legal] in HL. unfold legal_access, exists_arr in HL.
    cbn [astep] in *. destruct (afind aw1 a) as [[k0 x]|] eqn:Ea; [|contradiction].
    pose proof (HK _ eq_refl) as Ek. cbn in Ek. subst k0.
    destruct HL as (L1 & L2 & L3 & L4 & HL).
    destruct x as [|gs f|gs nb]; cbn [a_shape] in *; [discriminate| |].
    - destruct (access_error (k_N k) (k_locs k) gs n q fl) eqn:EE; [discriminate|].
      exists gs. split; [|].
      + eexists. split; [cbn [fst]; unfold with_arr; erewrite afind_put_same by eassumption; reflexivity|].
        unfold put_at. now rewrite Z.eqb_refl, zs_eqb_refl.
      + destruct (after_exists F h1 HL1) as (w1 & HA1).
        destruct (after_rel _ _ _ _ HA1) as (own1 & lk1 & HR1).
        destruct (rel_kind F _ _ _ _ _ _ _ HR1 Ea) as (o & _ & _ & Hr & _). conjs; auto. apply Hr.
    - destruct (access_error (k_N k) (k_locs k) gs n q fl); [discriminate|contradiction]. }
  destruct HA1 as (gs & H1 & Lg & EE & Lq & Lf).
  assert (H2 : holds_val aw2 a k gs n (slot_of q fl) v).
  { unfold aw2. rewrite aexec_app. cbn [fst aexec]. fold aw1.
    destruct (astep F aw1 (Write a n q fl v)) as [aw1' r]. cbn [fst] in *.
    pose proof (undisturbed F h2 aw1' a k gs n (slot_of q fl) v H1 HD) as H2. now destruct (aexec F aw1' h2). }
  destruct H2 as (f & Ha & Hv). cbn [aexec astep]. rewrite Ha. cbn [a_shape].
  cbn [legal] in HLr. unfold legal_access, exists_arr in HLr. rewrite Ha in HLr. destruct HLr as (_ & L2 & L3 & _).
  assert (EE' : access_error (k_N k) (k_locs k) gs n q' fl' = None).
  { pose proof (access_none _ _ _ _ _ _ Lg Lq Lf EE) as [X1 X2].
    unfold access_error. destruct (k_N k <=? n) eqn:En; [zcmp; lia|]. rewrite HFl.
    apply index_error_none; auto. now rewrite HS. }
  rewrite EE'. cbn [snd]. now rewrite HS, Hv.
Qed.

Lemma histories F h :
  legal_run F a_start h -> exists w, exec true (start F) h = Some (w, snd (aexec F a_start h)).
Proof.
  intros HL. destruct (exec_sim F h _ _ _ _ (rel_start F) HL) as (w & own & lk & E & _). eauto.
Qed.

End Life.
