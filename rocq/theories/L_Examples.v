(** The example programs. *)

From Coq Require Import ZArith List Bool Lia Sorted.
From Verif Require Import Base M_Flags M_Loop M_RS1 M_RS2 M_RS3 M_Heap M_PD1 M_PD2 M_PD3 M_World M_Client M_Examples
  Spec Spec_Loop Spec_Array Spec_Hist Spec_Reach Spec_Mode Spec_Client
  L_Base L_RS L_Range L_Loop L_Heap L_Lin L_Rep L_PD1 L_PD2 L_PD3 L_Kind L_Copy L_World L_Sim L_Access L_Copies L_Client.
Import ListNotations.
Open Scope Z_scope.

Section Examples.
Context {V : Type}.
Implicit Types (w : world V) (aw : aworld V).

Notation shapes := (nat -> option (kind * list dim_shape)).
Definition store := nat -> Z -> list Z -> option V.
Definition look (f : store) (p : elt) : option V := f (p_arr p) (p_comp p) (slot_of (p_at p) (p_fl p)).
Definition at_st (sh : shapes) (f : store) aw : Prop := at_store sh (look f) aw.

(** Targets: array, component and the value for a slot. *)
Definition targets := list (nat * Z * (list Z -> V)).
Fixpoint pick (ts : targets) (a : nat) (n : Z) : option (list Z -> V) :=
  match ts with
  | [] => None
  | (a', n', v) :: ts' => if Nat.eqb a a' && (n =? n') then Some v else pick ts' a n
  end.
Definition over (f : store) (ts : targets) (sel : list Z -> bool) : store :=
  fun a n s => if sel s then match pick ts a n with Some v => Some (v s) | None => f a n s end else f a n s.

Lemma at_st_ext sh f f' aw : (forall a n s, f a n s = f' a n s) -> at_st sh f aw -> at_st sh f' aw.
Proof. intros H (H1 & H2 & H3). split; [exact H1|]. split; [exact H2|]. intros p. rewrite H3. apply H. Qed.

Lemma ht_get_st F chk sh f p v :
  usable sh p -> look f p = Some v -> ht F (at_st sh f) (get chk p) (fun x aw => x = v /\ at_st sh f aw).
Proof.
  intros HU Hv. apply ht_get. intros aw HP. split; [eapply at_store_usable; eassumption|].
  destruct HP as (_ & _ & HP). now rewrite HP.
Qed.

Lemma ht_set_st F chk sh f p v ts s0 :
  usable sh p -> ts = [(p_arr p, p_comp p, fun _ => v)] -> s0 = slot_of (p_at p) (p_fl p) ->
  ht F (at_st sh f) (set chk p v) (fun _ => at_st sh (over f ts (zs_eqb s0))).
Proof.
  intros HU -> ->. eapply ht_conseq; [apply (ht_set F chk sh (look f) p v HU)|auto|].
  intros _ aw (H1 & H2 & H3). split; [exact H1|]. split; [exact H2|]. intros p'. rewrite H3.
  unfold put, same_eltb, look, over, pick.
  destruct (Nat.eqb (p_arr p') (p_arr p)) eqn:E1, (p_comp p' =? p_comp p) eqn:E2; cbn;
    try (destruct (zs_eqb _ _); reflexivity).
  replace (zs_eqb (slot_of (p_at p') (p_fl p')) (slot_of (p_at p) (p_fl p)))
    with (zs_eqb (slot_of (p_at p) (p_fl p)) (slot_of (p_at p') (p_fl p'))).
  - reflexivity.
  - apply eq_true_iff_eq. rewrite !zs_eqb_eq. split; congruence.
Qed.

(** Sequencing when the first part gives a known value. *)
Lemma ht_let {A B} F (P R : aworld V -> Prop) (m : M (world V) A) v (k : A -> M (world V) B) Q :
  ht F P m (fun x aw => x = v /\ R aw) -> ht F R (k v) Q -> ht F P (bind m k) Q.
Proof.
  intros H1 H2. eapply ht_bind; [exact H1|]. intros x h w aw HA [-> HR]. exact (H2 h w aw HA HR).
Qed.

Lemma ht_lift_let {A B} F P (r : res A) v (k : A -> M (world V) B) Q :
  r = Ok v -> ht F P (k v) Q -> ht F P (bind (lift r) k) Q.
Proof. intros E H. eapply ht_let; [|exact H]. apply (ht_lift F P r v _ E). auto. Qed.

(** Sizes. *)
Lemma ht_size1 F sh f a N l n i p :
  sh a = Some (K1 N l, [(n, i, p)]) -> ht F (at_st sh f) (size_D1 a) (fun s aw => s = mkSize1 i n p /\ at_st sh f aw).
Proof.
  intros Hs h w aw HA HP. pose proof HP as (_ & H2 & _). specialize (H2 a). rewrite Hs in H2. unfold shp in H2.
  destruct (afind aw a) as [[k [|gs g|]]|] eqn:Ea; try discriminate H2. injection H2 as -> ->.
  destruct (after_rel _ _ _ _ HA) as (own & lk & HR). pose proof (r_arr _ _ _ _ _ HR a) as Ho.
  rewrite Ea in Ho. unfold entry_ok in Ho. destruct (find w a) as [[k o]|] eqn:Ef; [|contradiction].
  destruct Ho as (-> & HN & _ & _ & Hl & _). unfold liv in Hl. destruct o as [o|o|o]; try contradiction.
  destruct (own a) as [|b [|? ?]]; try contradiction. destruct Hl as (Hsz & _).
  exists [], w, aw, (mkSize1 i n p). rewrite app_nil_r. split; [|split; [split; [exact HA|constructor]|split; [reflexivity|exact HP]]].
  unfold size_D1. now rewrite Ef, Hsz.
Qed.

Lemma ht_size2 F sh f a N l0 l1 g0 g1 :
  sh a = Some (K2 N l0 l1, [g0; g1]) -> ht F (at_st sh f) (size_D2 a) (fun s aw => s = size2_of g0 g1 /\ at_st sh f aw).
Proof.
  intros Hs h w aw HA HP. pose proof HP as (_ & H2 & _). specialize (H2 a). rewrite Hs in H2. unfold shp in H2.
  destruct (afind aw a) as [[k [|gs g|]]|] eqn:Ea; try discriminate H2. injection H2 as -> ->.
  destruct (after_rel _ _ _ _ HA) as (own & lk & HR). pose proof (r_arr _ _ _ _ _ HR a) as Ho.
  rewrite Ea in Ho. unfold entry_ok in Ho. destruct (find w a) as [[k o]|] eqn:Ef; [|contradiction].
  destruct Ho as (-> & HN & _ & _ & Hl & _). unfold liv in Hl. destruct o as [o|o|o]; try contradiction.
  destruct (own a) as [|b [|t [|? ?]]]; try contradiction. destruct Hl as (Hsz & _).
  exists [], w, aw, (size2_of g0 g1). rewrite app_nil_r. split; [|split; [split; [exact HA|constructor]|split; [reflexivity|exact HP]]].
  unfold size_D2. now rewrite Ef, Hsz.
Qed.

(** The loop over a box whose body sets the targets at the point visited. *)
Definition agree (f f' : store) (ts : targets) (B : box) (q : list Z) : Prop :=
  forall a n s, pick ts a n = None \/ s = q \/ ~ in_box B s -> f' a n s = f a n s.

Lemma ht_box F sh f ts B (body : list Z -> M (world V) unit) :
  (forall q f', in_box B q -> agree f f' ts B q ->
     ht F (at_st sh f') (body q) (fun _ => at_st sh (over f' ts (zs_eqb q)))) ->
  ht F (at_st sh f) (run (points B) body) (fun _ => at_st sh (over f ts (in_boxb B))).
Proof.
  intros H. pose (sel := fun (l : list (list Z)) s => existsb (fun q => zs_eqb q s) l).
  assert (T : ht F (at_st sh (over f ts (sel []))) (run (points B) body) (fun _ => at_st sh (over f ts (sel (points B))))).
  { apply (ht_run F (fun l => at_st sh (over f ts (sel l)))). intros l1 q l2 E.
    assert (Hq : in_box B q) by (apply in_points; rewrite E; apply in_or_app; right; now left).
    eapply ht_conseq; [apply (H q (over f ts (sel l1)) Hq)|auto|].
    - intros a n s Hs. unfold over. destruct (sel l1 s) eqn:Es; [|reflexivity]. destruct (pick ts a n) as [v|] eqn:Ep; [|reflexivity].
      exfalso. unfold sel in Es. apply existsb_exists in Es. destruct Es as (q' & Hq' & Ez). apply zs_eqb_eq in Ez. subst q'.
      destruct Hs as [Hs|[->|Hs]]; [discriminate Hs| |].
      + pose proof (points_nodup B) as ND. rewrite E in ND. apply NoDup_remove_2 in ND. apply ND, in_or_app. now left.
      + apply Hs, in_points. rewrite E. apply in_or_app. now left.
    - intros ? aw. apply at_st_ext. intros a n s. unfold over, sel. rewrite existsb_app. cbn. rewrite orb_false_r.
      destruct (zs_eqb q s); [rewrite orb_true_r|rewrite orb_false_r]; destruct (pick ts a n); try reflexivity.
      now destruct (existsb _ l1). }
  eapply ht_conseq; [exact T| |].
  - intros aw. apply at_st_ext. reflexivity.
  - intros ? aw. apply at_st_ext. intros a n s. unfold over. replace (sel (points B) s) with (in_boxb B s); [reflexivity|].
    apply eq_true_iff_eq. rewrite in_boxb_iff. unfold sel. rewrite existsb_exists. split.
    + intros Hs. exists s. split; [now apply in_points|]. now apply zs_eqb_eq.
    + intros (q & Hq & Ez). apply zs_eqb_eq in Ez. subst q. now apply in_points.
Qed.

Lemma dim_fits_mk1 n i p : dim_fits (n, i, p) -> mk_sizeT1 n i p = mkSize1 i n p.
Proof. apply mk_sizeT1_fits. Qed.

Lemma ht_over1 F chk sh f ts a N l n i p t (body : Z -> M (world V) unit) :
  sh a = Some (K1 N l, [(n, i, p)]) -> dim_fits (n, i, p) ->
  (forall x f', fst (region (n, i, p) t) <= x < snd (region (n, i, p) t) -> agree f f' ts [region (n, i, p) t] [x] ->
     ht F (at_st sh f') (body x) (fun _ => at_st sh (over f' ts (zs_eqb [x])))) ->
  ht F (at_st sh f) (over1 chk a t body) (fun _ => at_st sh (over f ts (in_boxb [region (n, i, p) t]))).
Proof.
  intros Hs Hf Hb. unfold over1. eapply ht_let; [apply (ht_size1 F sh f a N l n i p Hs)|].
  destruct (regions_D1 chk n i p Hf) as (_ & _ & _ & _ & _ & Hr & _). destruct (Hr t) as (r & Er & Efc).
  rewrite dim_fits_mk1 in Er by assumption. eapply ht_lift_let; [exact Er|].
  intros h w aw HA HP. rewrite loop_D1, Efc.
  2:{ rewrite Efc. repeat constructor; destruct t; cbn; unfold dim_fits, in_int in *; lia. }
  revert h w aw HA HP. apply (ht_box F sh f ts). intros q f' Hq Hag.
  apply in_box_cons in Hq. destruct Hq as (x & q' & -> & Hx & Hq'). apply in_box_nil in Hq'. subst q'. cbn [call1 nth].
  apply Hb; assumption.
Qed.


Lemma ht_set1 F chk sh f p v vf q :
  usable sh p -> slot_of (p_at p) (p_fl p) = q -> vf q = v ->
  ht F (at_st sh f) (set chk p v) (fun _ => at_st sh (over f [(p_arr p, p_comp p, vf)] (zs_eqb q))).
Proof.
  intros HU <- <-. eapply ht_conseq; [eapply (ht_set_st F chk sh f p); [exact HU|reflexivity|reflexivity]|auto|].
  intros ? aw. apply at_st_ext. intros a n s. unfold over. destruct (zs_eqb _ s) eqn:E; [|reflexivity].
  apply zs_eqb_eq in E. rewrite <- E. cbn. now destruct (_ && _).
Qed.

Lemma over_hit f ts sel a n s v : sel s = true -> pick ts a n = Some v -> over f ts sel a n s = Some (v s).
Proof. intros H1 H2. unfold over. now rewrite H1, H2. Qed.
Lemma over_skip f ts sel a n s : pick ts a n = None -> over f ts sel a n s = f a n s.
Proof. intros H. unfold over. rewrite H. now destruct (sel s). Qed.
Lemma over_out f ts sel a n s : sel s = false -> over f ts sel a n s = f a n s.
Proof. intros H. unfold over. now rewrite H. Qed.

Lemma inb1 b e i : b <= i < e -> in_boxb [(b, e)] [i] = true.
Proof. intros H. cbn. rewrite !andb_true_iff, Z.leb_le, Z.ltb_lt. lia. Qed.
Lemma outb1 b e i : i < b \/ e <= i -> in_boxb [(b, e)] [i] = false.
Proof. intros H. cbn. destruct (Z.leb_spec b i), (Z.ltb_spec i e); try reflexivity; lia. Qed.

(** ** Construction *)

Definition made (t : nat) (l : list (option (kind * arr V))) aw : Prop := a_tick aw = t /\ arrs aw = l.

Lemma ht_new F chk t l k gs c :
  1 <= k_N k <= INT_MAX -> shape_arg k gs -> bad_dim 0 gs = None -> vol (slot_box gs (k_locs k)) <> 0 ->
  first_fail F t (length (k_locs k)) = None -> c = length (k_locs k) ->
  ht F (made t l) (call chk (NewSized k gs)) (fun _ => made (t + c) (l ++ [Some (k, ALive gs blank_content)])).
Proof.
  intros HN Hs Hb Hv Hm -> h w aw HA [Ht Hl].
  assert (E : astep F aw (NewSized k gs) = (mkA (t + length (k_locs k)) (a_leak aw) (l ++ [Some (k, ALive gs blank_content)]), RDone)).
  { cbn. destruct (Z.eqb_spec (k_N k) 0) as [X|_]; [lia|]. unfold a_alloc. rewrite Hb.
    apply Z.eqb_neq in Hv. rewrite Hv, Ht, Hm, Hl. reflexivity. }
  destruct (call_ok chk F h w aw (NewSized k gs) HA) as (w' & E1 & HA').
  - cbn. split; [unfold kind_ok; lia|exact Hs].
  - intros e. rewrite E. discriminate.
  - rewrite E in E1, HA'. cbn in E1, HA'. eexists [_], w', _, _. split; [exact E1|]. split; [split; [exact HA'|repeat constructor]|]. split; reflexivity.
Qed.

Lemma vol1 n i p : vol (slot_box [(n, i, p)] [center]) = n + i + p.
Proof. unfold vol, slot_box, zprod. cbn [combine map slots fst snd loc_val fold_right]. ring. Qed.
Lemma vol2 n i p n1 i1 p1 : vol (slot_box [(n, i, p); (n1, i1, p1)] [center; center]) = (n + i + p) * (n1 + i1 + p1).
Proof. unfold vol, slot_box, zprod. cbn [combine map slots fst snd loc_val fold_right]. ring. Qed.

Lemma ht_new1 F chk t l N n i p :
  1 <= N <= INT_MAX -> shape_ok (n, i, p) -> 1 <= i -> N * (n + i + p) < UINT_MOD -> F t = false ->
  ht F (made t l) (call chk (NewSized (K1 N center) [(n, i, p)])) (fun _ => made (t + 1) (l ++ [Some (K1 N center, ALive [(n, i, p)] blank_content)])).
Proof.
  intros HN Hs Hi Hv Ht. apply ht_new; try reflexivity.
  - exact HN.
  - split; [reflexivity|]. split; [apply Forall_cons; [exact Hs|apply Forall_nil]|]. cbn [k_N k_locs]. rewrite vol1. exact Hv.
  - cbn. destruct (Z.eqb_spec i 0); [lia|reflexivity].
  - cbn [k_locs]. rewrite vol1. unfold shape_ok in Hs. lia.
  - cbn. now rewrite Ht.
Qed.

Lemma ht_new2 F chk t l N n i p n1 i1 p1 :
  1 <= N <= INT_MAX -> shape_ok (n, i, p) -> 1 <= i -> shape_ok (n1, i1, p1) -> 1 <= i1 ->
  N * ((n + i + p) * (n1 + i1 + p1)) < UINT_MOD -> F t = false -> F (S t) = false ->
  ht F (made t l) (call chk (NewSized (K2 N center center) [(n, i, p); (n1, i1, p1)]))
    (fun _ => made (t + 2) (l ++ [Some (K2 N center center, ALive [(n, i, p); (n1, i1, p1)] blank_content)])).
Proof.
  intros HN Hs Hi Hs1 Hi1 Hv Ht Ht1. apply ht_new; try reflexivity.
  - exact HN.
  - split; [reflexivity|]. split; [apply Forall_cons; [exact Hs|apply Forall_cons; [exact Hs1|apply Forall_nil]]|].
    cbn [k_N k_locs]. rewrite vol2. exact Hv.
  - cbn. destruct (Z.eqb_spec i 0); [lia|]. destruct (Z.eqb_spec i1 0); [lia|]. reflexivity.
  - cbn [k_locs]. rewrite vol2. unfold shape_ok in *. nia.
  - cbn. now rewrite Ht, Ht1.
Qed.

Definition shapes_of (l : list (kind * list dim_shape)) : shapes := nth_error l.

Lemma made_at t l aw :
  made t (map (fun '(k, gs) => Some (k, ALive gs blank_content)) l) aw -> at_st (shapes_of l) (fun _ _ _ => None) aw.
Proof.
  intros [_ Hl].
  assert (E : forall a, afind aw a = match nth_error l a with Some (k, gs) => Some (k, ALive gs blank_content) | None => None end).
  { intros a. unfold afind. rewrite Hl, nth_error_map. destruct (nth_error l a) as [[k gs]|]; reflexivity. }
  split; [|split].
  - intros a k gs nb. rewrite E. destruct (nth_error l a) as [[? ?]|]; discriminate.
  - intros a. unfold shp. rewrite E. unfold shapes_of. now destruct (nth_error l a) as [[? ?]|].
  - intros p. unfold st, look. rewrite E. now destruct (nth_error l (p_arr p)) as [[? ?]|].
Qed.

(** Repetition. *)
Lemma ht_passes F (I : nat -> aworld V -> Prop) k (body : M (world V) unit) :
  (forall j, ht F (I j) body (fun _ => I (S j))) -> forall j, ht F (I j) (passes k body) (fun _ => I (j + k)%nat).
Proof.
  intros H. induction k as [|k IH]; intros j; cbn [passes].
  - apply ht_ret. intros aw. now rewrite Nat.add_0_r.
  - eapply ht_bind; [apply H|]. intros ?. cbn beta. replace (j + S k)%nat with (S j + k)%nat by lia. apply IH.
Qed.

Lemma ht_times F (P Q : aworld V -> Prop) N (body : M (world V) unit) :
  1 <= N < UINT_MOD -> ht F P body (fun _ => Q) -> (forall aw, Q aw -> P aw) -> ht F P (exec_time N body) (fun _ => Q).
Proof.
  intros HN H HQ h w aw HA HP. unfold exec_time. rewrite for_uint_run by lia.
  assert (T : forall l, l <> [] -> ht F P (run l (fun _ : Z => body)) (fun _ => Q)).
  { induction l as [|x l IH]; [congruence|]. intros _. cbn [run]. destruct l as [|y l].
    - cbn [run]. eapply ht_bind; [exact H|]. intros []. apply ht_ret. auto.
    - eapply ht_bind; [exact H|]. intros ?. eapply ht_conseq; [apply IH; discriminate|exact HQ|auto]. }
  refine (T (zrange 0 N) _ h w aw HA HP). rewrite zrange_cons by lia. discriminate.
Qed.

Lemma ht_exists {A B} F (P : A -> aworld V -> Prop) (m : M (world V) B) Q :
  (forall x, ht F (P x) m Q) -> ht F (fun aw => exists x, P x aw) m Q.
Proof. intros H h w aw HA [x HP]. exact (H x h w aw HA HP). Qed.

Lemma after_start F : after F [] (start F : world V) a_start.
Proof. split; [exact I|]. split; [reflexivity|]. exists []. reflexivity. Qed.

(** ** Example_D1_heat *)

Section Heat1.
Variables (F : nat -> bool) (chk : bool) (N : Z).
Hypothesis HN : 2 <= N <= 1073741824.
Variables (xf : Z -> V) (cosf exact : V -> V) (lap : V -> V -> V -> V) (adv : V -> V -> V).

Let sh : shapes := shapes_of [(K1 1 center, [(0, N, 0)]); (K1 2 center, [(1, N, 1)]); (K1 1 center, [(0, N, 0)])].

Lemma ux i : 0 <= i < N -> usable sh (x1 i).
Proof. intros H. exists (K1 1 center), [(0, N, 0)]. split; [reflexivity|]. cbn. unfold accepts. cbn. lia. Qed.
Lemma ud i : 0 <= i < N -> usable sh (dudt1 i).
Proof. intros H. exists (K1 1 center), [(0, N, 0)]. split; [reflexivity|]. cbn. unfold accepts. cbn. lia. Qed.
Lemma uu n i : 0 <= n < 2 -> -1 <= i < N + 1 -> usable sh (u1 n i).
Proof. intros H H'. exists (K1 2 center), [(1, N, 1)]. split; [reflexivity|]. cbn. unfold accepts. cbn. lia. Qed.

Lemma slot1 i : slot_of [i] [FC] = [i].
Proof. cbn. f_equal. lia. Qed.
Lemma look_x f i : look f (x1 i) = f 0%nat 0 [i].
Proof. unfold look. cbn [x1 p_arr p_comp p_at p_fl]. now rewrite slot1. Qed.
Lemma look_u f n i : look f (u1 n i) = f 1%nat n [i].
Proof. unfold look. cbn [u1 p_arr p_comp p_at p_fl]. now rewrite slot1. Qed.
Lemma look_d f i : look f (dudt1 i) = f 2%nat 0 [i].
Proof. unfold look. cbn [dudt1 p_arr p_comp p_at p_fl]. now rewrite slot1. Qed.

Lemma fits0 : dim_fits (0, N, 0).
Proof. unfold dim_fits. lia. Qed.
Lemma fits1 : dim_fits (1, N, 1).
Proof. unfold dim_fits. lia. Qed.

Definition inv1 (G : Z -> V) (f : store) : Prop :=
  (forall i, 0 <= i < N -> f 0%nat 0 [i] = Some (xf i)) /\ (forall i, 0 <= i < N -> f 1%nat 0 [i] = Some (G i)).

Lemma mirror1_N i : -1 <= i < 0 -> mirror1 chk (mkSize1 N 1 1) 0 BN i = Ok (- i).
Proof. intros H. unfold mirror1, sbound1, sbegin1. destruct chk; cbn [check_d1 rbind]; change (1 <=? 0) with false; cbn [rbind];
  unfold imul, isub; rewrite !ck_ok by (unfold in_int; lia); cbn [rbind]; rewrite ck_ok by (unfold in_int; lia); f_equal; lia. Qed.
Lemma mirror1_P i : N <= i < N + 1 -> mirror1 chk (mkSize1 N 1 1) 0 BP i = Ok (2 * (N - 1) - i).
Proof.
  intros H. unfold mirror1, sbound1, slast1, send1. destruct chk; cbn [check_d1 rbind]; change (1 <=? 0) with false; cbn [rbind s1_in];
  unfold imul, isub; rewrite ck_ok by (unfold in_int; lia); cbn [rbind]; rewrite ck_ok by (unfold in_int; lia); cbn [rbind];
  rewrite ck_ok by (unfold in_int; lia); f_equal; lia. Qed.

Lemma ghost1_ok t fl G f :
  (t, fl) = (RN, BN) \/ (t, fl) = (RP, BP) -> (forall i, 0 <= i < N -> f 1%nat 0 [i] = Some (G i)) ->
  ht F (at_st sh f) (ghost1 chk t fl)
    (fun _ => at_st sh (over f [(1%nat, 0, fun s => ext N G (nth 0 s 0))] (in_boxb [region (1, N, 1) t]))).
Proof.
  intros Ht HG. unfold ghost1. apply ht_over1 with (N := 2) (l := center) (n := 1) (i := N) (p := 1); [reflexivity|apply fits1|].
  intros i f' Hi Hag. eapply ht_let; [eapply ht_size1; reflexivity|].
  set (i' := match fl with BN => - i | BP => 2 * (N - 1) - i end).
  assert (Hi' : 0 <= i' < N) by (destruct Ht as [E|E]; injection E as -> ->; cbn in Hi; subst i'; lia).
  eapply ht_lift_let with (v := i').
  { destruct Ht as [E|E]; injection E as -> ->; cbn in Hi; [apply mirror1_N|apply mirror1_P]; lia. }
  eapply ht_let; [apply (ht_get_st F chk sh f' (u1 0 i') (G i'))|].
  - apply uu; lia.
  - rewrite look_u, (Hag 1%nat 0 [i']); [apply HG; assumption|]. right. right. intros Hb.
    apply in_boxb_iff in Hb. clearbody i'.
    destruct Ht as [E|E]; injection E as -> ->; cbn [region] in Hb; rewrite outb1 in Hb by lia; discriminate Hb.
  - apply (ht_set1 F chk sh f' (u1 0 i) (G i') _ [i]).
    + apply uu; [lia|]. destruct Ht as [E|E]; injection E as -> ->; cbn in Hi; lia.
    + apply slot1.
    + cbn [nth]. unfold ext, i'. destruct Ht as [E|E]; injection E as -> ->; cbn in Hi.
      * destruct (Z.ltb_spec i 0); [reflexivity|lia].
      * destruct (Z.ltb_spec i 0); [lia|]. destruct (Z.leb_spec N i); [reflexivity|lia].
Qed.

Lemma pass1_ok G f :
  inv1 G f -> ht F (at_st sh f) (pass1 chk lap adv) (fun _ aw => exists f', at_st sh f' aw /\ inv1 (heat_step N lap adv G) f').
Proof.
  intros [Hx Hu]. unfold pass1.
  eapply ht_bind; [apply (ghost1_ok RN BN G f); auto|]. intros [].
  match goal with |- ht _ (at_st _ ?x) _ _ => set (f1 := x) end.
  assert (Hu1 : forall i, 0 <= i < N -> f1 1%nat 0 [i] = Some (G i)).
  { intros i Hi. unfold f1. rewrite over_out by (apply outb1; lia). auto. }
  eapply ht_bind; [apply (ghost1_ok RP BP G f1); auto|]. intros [].
  match goal with |- ht _ (at_st _ ?x) _ _ => set (f2 := x) end.
  assert (Hu2 : forall i, -1 <= i < N + 1 -> f2 1%nat 0 [i] = Some (ext N G i)).
  { intros i Hi. unfold f2. destruct (Z.lt_ge_cases i N) as [L|L].
    - rewrite over_out by (apply outb1; lia). unfold ext. destruct (Z.ltb_spec i 0).
      + unfold f1. erewrite over_hit; [|apply inb1; lia|reflexivity]. cbn [nth]. unfold ext.
        destruct (Z.ltb_spec i 0); [reflexivity|lia].
      + destruct (Z.leb_spec N i); [lia|]. apply Hu1. lia.
    - erewrite over_hit; [|apply inb1; lia|reflexivity]. reflexivity. }
  assert (Hx2 : forall i, 0 <= i < N -> f2 0%nat 0 [i] = Some (xf i)).
  { intros i Hi. unfold f2, f1. rewrite !over_skip by reflexivity. auto. }
  assert (Hin : forall i, 0 <= i < N -> ext N G i = G i).
  { intros i Hi. unfold ext. destruct (Z.ltb_spec i 0); [lia|]. destruct (Z.leb_spec N i); [lia|reflexivity]. }
  pose (L := fun i => lap (ext N G (i - 1)) (G i) (ext N G (i + 1))).
  eapply ht_bind.
  { apply (ht_over1 F chk sh f2 [(2%nat, 0, fun s => L (nth 0 s 0))]) with (N := 1) (l := center) (n := 0) (i := N) (p := 0); [reflexivity|apply fits0|].
    cbn [region fst snd]. intros i f' Hi Hag.
    assert (R : forall j, -1 <= j < N + 1 -> look f' (u1 0 j) = Some (ext N G j)).
    { intros j Hj. rewrite look_u, Hag by (left; reflexivity). auto. }
    eapply ht_lift_let; [apply ck_ok; unfold in_int; lia|]. eapply ht_lift_let; [apply ck_ok; unfold in_int; lia|].
    eapply ht_let; [apply ht_get_st; [apply uu; lia|apply R; lia]|].
    eapply ht_let; [apply ht_get_st; [apply uu; lia|apply R; lia]|].
    eapply ht_let; [apply ht_get_st; [apply uu; lia|apply R; lia]|].
    apply (ht_set1 F chk sh f' (dudt1 i)); [now apply ud|apply slot1|]. cbn [nth]. unfold L. now rewrite (Hin i). }
  intros [].
  match goal with |- ht _ (at_st _ ?x) _ _ => set (f3 := x) end.
  assert (Hu3 : forall i, 0 <= i < N -> f3 1%nat 0 [i] = Some (G i)).
  { intros i Hi. unfold f3. rewrite over_skip by reflexivity. rewrite Hu2, Hin by lia. reflexivity. }
  assert (Hd3 : forall i, 0 <= i < N -> f3 2%nat 0 [i] = Some (L i)).
  { intros i Hi. unfold f3. erewrite over_hit; [|apply inb1; lia|reflexivity]. reflexivity. }
  eapply ht_conseq.
  { apply (ht_over1 F chk sh f3 [(1%nat, 0, fun s => heat_step N lap adv G (nth 0 s 0))]) with (N := 2) (l := center) (n := 1) (i := N) (p := 1); [reflexivity|apply fits1|].
    cbn [region fst snd]. intros i f' Hi Hag.
    eapply ht_let; [apply (ht_get_st F chk sh f' (u1 0 i) (G i)); [apply uu; lia|]|].
    { rewrite look_u, Hag by (right; left; reflexivity). auto. }
    eapply ht_let; [apply (ht_get_st F chk sh f' (dudt1 i) (L i)); [now apply ud|]|].
    { rewrite look_d, Hag by (left; reflexivity). auto. }
    apply (ht_set1 F chk sh f' (u1 0 i)); [apply uu; lia|apply slot1|]. reflexivity. }
  { auto. }
  intros ? aw HP. eexists. split; [exact HP|]. split.
  - intros i Hi. rewrite over_skip by reflexivity. unfold f3. rewrite over_skip by reflexivity. auto.
  - intros i Hi. erewrite over_hit; [|apply inb1; lia|reflexivity]. reflexivity.
Qed.

Lemma heat1_ok reps k :
  1 <= reps < UINT_MOD -> (forall t, (t < 3)%nat -> F t = false) ->
  ht F (fun aw => aw = a_start) (heat1 chk N reps k xf cosf exact lap adv)
    (fun _ aw => exists f, at_st sh f aw /\ inv1 (Nat.iter k (heat_step N lap adv) (fun i => cosf (xf i))) f /\
       forall i, 0 <= i < N -> f 1%nat 1 [i] = Some (exact (xf i))).
Proof.
  intros Hr HF. unfold heat1.
  eapply ht_bind.
  { eapply ht_conseq; [apply (ht_new1 F chk 0 [] 1 0 N 0)|intros aw ->; split; reflexivity|]; try (apply HF; lia); try lia; [unfold shape_ok; lia|].
    intros y aw HP. exact HP. }
  intros rr. cbn beta. cbn [app Nat.add]. clear rr.
  eapply ht_bind.
  { apply (ht_new1 F chk 1 _ 2 1 N 1); try (apply HF; lia); try lia. unfold shape_ok; lia. }
  intros rr. cbn beta. cbn [app Nat.add]. clear rr.
  eapply ht_bind.
  { apply (ht_new1 F chk 2 _ 1 0 N 0); try (apply HF; lia); try lia. unfold shape_ok; lia. }
  intros rr. cbn beta. cbn [app Nat.add]. clear rr.
  eapply ht_bind.
  { eapply ht_conseq; [|exact (made_at 3 [(K1 1 center, [(0, N, 0)]); (K1 2 center, [(1, N, 1)]); (K1 1 center, [(0, N, 0)])])|].
    - apply (ht_over1 F chk sh _ [(0%nat, 0, fun s => xf (nth 0 s 0))]) with (N := 1) (l := center) (n := 0) (i := N) (p := 0); [reflexivity|apply fits0|].
      cbn [region fst snd]. intros i f' Hi Hag. apply (ht_set1 F chk sh f' (x1 i)); [now apply ux|apply slot1|reflexivity].
    - intros y aw HP. exact HP. }
  intros [].
  match goal with |- ht _ (at_st _ ?x) _ _ => set (f0 := x) end.
  set (X := fun f : store => forall i, 0 <= i < N -> f 0%nat 0 [i] = Some (xf i)).
  assert (X0 : X f0).
  { intros i Hi. unfold f0. erewrite over_hit; [|apply inb1; lia|reflexivity]. reflexivity. }
  set (G0 := fun i => cosf (xf i)).
  eapply ht_bind.
  { eapply ht_conseq with (P' := fun aw => exists f, at_st sh f aw /\ X f) (Q' := fun _ aw => exists f, at_st sh f aw /\ inv1 (Nat.iter k (heat_step N lap adv) G0) f);
      [|intros aw HP; exists f0; split; assumption|intros y aw HP; exact HP].
    apply ht_times; [exact Hr| |].
    2:{ intros aw (f & HP & HX & _). exists f. split; assumption. }
    apply ht_exists. intros f. apply ht_pre. intros aw0 [HP HX].
    eapply ht_conseq with (P' := at_st sh f); [|intros aw ->; exact HP|intros y aw H; exact H].
    eapply ht_bind.
    { apply (ht_over1 F chk sh f [(1%nat, 0, fun s => G0 (nth 0 s 0))]) with (N := 2) (l := center) (n := 1) (i := N) (p := 1); [reflexivity|apply fits1|].
      cbn [region fst snd]. intros i f' Hi Hag.
      eapply ht_let; [apply (ht_get_st F chk sh f' (x1 i) (xf i)); [now apply ux|]|].
      { rewrite look_x, Hag by (left; reflexivity). auto. }
      apply (ht_set1 F chk sh f' (u1 0 i)); [apply uu; lia|apply slot1|reflexivity]. }
    intros [].
    match goal with |- ht _ (at_st _ ?x) _ _ => set (f1 := x) end.
    eapply ht_conseq with (P' := fun aw => exists f, at_st sh f aw /\ inv1 (Nat.iter 0 (heat_step N lap adv) G0) f).
    - apply (ht_passes F (fun j aw => exists f, at_st sh f aw /\ inv1 (Nat.iter j (heat_step N lap adv) G0) f) k).
      intros j. apply ht_exists. intros f2. apply ht_pre. intros aw1 [HP1 HI1].
      eapply ht_conseq; [apply (pass1_ok _ f2 HI1)|intros aw ->; exact HP1|auto].
    - intros aw HP1. exists f1. split; [exact HP1|]. split.
      + intros i Hi. unfold f1. rewrite over_skip by reflexivity. auto.
      + intros i Hi. unfold f1. erewrite over_hit; [|apply inb1; lia|reflexivity]. reflexivity.
    - auto. }
  intros []. apply ht_exists. intros f. apply ht_pre. intros aw0 (HP & HX & HU).
  eapply ht_conseq.
  { apply (ht_over1 F chk sh f [(1%nat, 1, fun s => exact (xf (nth 0 s 0)))]) with (N := 2) (l := center) (n := 1) (i := N) (p := 1); [reflexivity|apply fits1|].
    cbn [region fst snd]. intros i f' Hi Hag.
    eapply ht_let; [apply (ht_get_st F chk sh f' (x1 i) (xf i)); [now apply ux|]|].
    { rewrite look_x, Hag by (left; reflexivity). auto. }
    apply (ht_set1 F chk sh f' (u1 1 i)); [apply uu; lia|apply slot1|reflexivity]. }
  { intros aw ->. exact HP. }
  intros ? aw HP'. eexists. split; [exact HP'|]. split; [split|].
  - intros i Hi. rewrite over_skip by reflexivity. auto.
  - intros i Hi. rewrite over_skip by reflexivity. auto.
  - intros i Hi. erewrite over_hit; [|apply inb1; lia|reflexivity]. reflexivity.
Qed.

End Heat1.

(** ** Two dimensions *)

Lemma ht_over2 F chk sh f ts a N l0 l1 n i p n1 i1 p1 t0 t1 (body : Z -> Z -> M (world V) unit) :
  sh a = Some (K2 N l0 l1, [(n, i, p); (n1, i1, p1)]) -> dim_fits (n, i, p) -> dim_fits (n1, i1, p1) ->
  (forall x y f', fst (region (n, i, p) t0) <= x < snd (region (n, i, p) t0) ->
     fst (region (n1, i1, p1) t1) <= y < snd (region (n1, i1, p1) t1) ->
     agree f f' ts [region (n, i, p) t0; region (n1, i1, p1) t1] [x; y] ->
     ht F (at_st sh f') (body x y) (fun _ => at_st sh (over f' ts (zs_eqb [x; y])))) ->
  ht F (at_st sh f) (over2 chk a t0 t1 body)
    (fun _ => at_st sh (over f ts (in_boxb [region (n, i, p) t0; region (n1, i1, p1) t1]))).
Proof.
  intros Hs Hf Hf1 Hb. unfold over2. eapply ht_let; [apply (ht_size2 F sh f a N l0 l1 _ _ Hs)|].
  destruct (regions_D2 chk n i p n1 i1 p1 Hf Hf1) as (_ & Hr & _). destruct (Hr t0 t1) as (r & Er & Efc).
  rewrite mk_sizeT2_fits in Er by assumption. eapply ht_lift_let; [exact Er|].
  intros h w aw HA HP. rewrite loop_D2, Efc.
  2:{ rewrite Efc. repeat constructor; destruct t0, t1; cbn; unfold dim_fits, in_int in *; lia. }
  revert h w aw HA HP. apply (ht_box F sh f ts). intros q f' Hq Hag.
  apply in_box_cons in Hq. destruct Hq as (x & q' & -> & Hx & Hq'). apply in_box_cons in Hq'.
  destruct Hq' as (y & q & -> & Hy & Hq'). apply in_box_nil in Hq'. subst q. cbn [call2 nth].
  apply Hb; assumption.
Qed.

Lemma inb2 b e b1 e1 i j : b <= i < e -> b1 <= j < e1 -> in_boxb [(b, e); (b1, e1)] [i; j] = true.
Proof. intros H H1. cbn. rewrite !andb_true_iff, !Z.leb_le, !Z.ltb_lt. lia. Qed.
Lemma outb2 b e b1 e1 i j : i < b \/ e <= i \/ j < b1 \/ e1 <= j -> in_boxb [(b, e); (b1, e1)] [i; j] = false.
Proof.
  intros H. cbn. destruct (Z.leb_spec b i), (Z.ltb_spec i e), (Z.leb_spec b1 j), (Z.ltb_spec j e1); try reflexivity; lia.
Qed.

(** ** Example_D2_heat *)

Section Heat2.
Variables (F : nat -> bool) (chk : bool) (Nx Ny : Z).
Hypothesis HNx : 2 <= Nx.
Hypothesis HNy : 2 <= Ny.
Hypothesis HN : 2 * ((Nx + 2) * (Ny + 2)) < UINT_MOD.
Variables (xf yf : Z -> V) (ini exact : V -> V -> V) (neg : V -> V) (lapx : V -> V -> V -> V)
  (lapy : V -> V -> V -> V -> V) (adv : V -> V -> V).

Let sh2 : shapes := shapes_of [(K2 2 center center, [(1, Nx, 1); (1, Ny, 1)]); (K2 2 center center, [(1, Nx, 1); (1, Ny, 1)]);
                               (K2 1 center center, [(0, Nx, 0); (0, Ny, 0)])].

Lemma bx : Nx <= 536870912.
Proof. nia. Qed.
Lemma by_ : Ny <= 536870912.
Proof. nia. Qed.

Lemma ux2 n i j : 0 <= n < 2 -> -1 <= i < Nx + 1 -> -1 <= j < Ny + 1 -> usable sh2 (x2 n i j).
Proof. intros H H1 H2. exists (K2 2 center center), [(1, Nx, 1); (1, Ny, 1)]. split; [reflexivity|]. cbn. unfold accepts. cbn. lia. Qed.
Lemma uu2 n i j : 0 <= n < 2 -> -1 <= i < Nx + 1 -> -1 <= j < Ny + 1 -> usable sh2 (u2 n i j).
Proof. intros H H1 H2. exists (K2 2 center center), [(1, Nx, 1); (1, Ny, 1)]. split; [reflexivity|]. cbn. unfold accepts. cbn. lia. Qed.
Lemma ud2 i j : 0 <= i < Nx -> 0 <= j < Ny -> usable sh2 (dudt2 i j).
Proof. intros H1 H2. exists (K2 1 center center), [(0, Nx, 0); (0, Ny, 0)]. split; [reflexivity|]. cbn. unfold accepts. cbn. lia. Qed.

Lemma slot2 i j : slot_of [i; j] [FC; FC] = [i; j].
Proof. cbn. f_equal; [lia|f_equal; lia]. Qed.
Lemma look_x2 f n i j : look f (x2 n i j) = f 0%nat n [i; j].
Proof. unfold look. cbn [x2 p_arr p_comp p_at p_fl]. now rewrite slot2. Qed.
Lemma look_u2 f n i j : look f (u2 n i j) = f 1%nat n [i; j].
Proof. unfold look. cbn [u2 p_arr p_comp p_at p_fl]. now rewrite slot2. Qed.
Lemma look_d2 f i j : look f (dudt2 i j) = f 2%nat 0 [i; j].
Proof. unfold look. cbn [dudt2 p_arr p_comp p_at p_fl]. now rewrite slot2. Qed.

Lemma fits0x : dim_fits (0, Nx, 0).
Proof. pose proof bx. unfold dim_fits. lia. Qed.
Lemma fits0y : dim_fits (0, Ny, 0).
Proof. pose proof by_. unfold dim_fits. lia. Qed.
Lemma fits1x : dim_fits (1, Nx, 1).
Proof. pose proof bx. unfold dim_fits. lia. Qed.
Lemma fits1y : dim_fits (1, Ny, 1).
Proof. pose proof by_. unfold dim_fits. lia. Qed.

Let sz : sizeT2 := mkSize2 (Nx, Ny) (1, 1) (1, 1).

Definition refl (N : Z) (fl : bflag) (i : Z) : Z := match fl with BN => - i | BP => 2 * (N - 1) - i end.

Lemma mirror2_x fl i : -1 <= i < Nx + 1 -> mirror2 chk sz 0 fl i = Ok (refl Nx fl i).
Proof.
  intros H. pose proof bx. unfold sz, refl. destruct fl; unfold mirror2, sbound2, slast2, sbegin2, send2, check_d2, idx2;
    destruct chk; cbn; unfold imul, isub; repeat (rewrite ck_ok by (unfold in_int; lia); cbn [rbind]); f_equal; lia.
Qed.
Lemma mirror2_y fl i : -1 <= i < Ny + 1 -> mirror2 chk sz 1 fl i = Ok (refl Ny fl i).
Proof.
  intros H. pose proof by_. unfold sz, refl. destruct fl; unfold mirror2, sbound2, slast2, sbegin2, send2, check_d2, idx2;
    destruct chk; cbn; unfold imul, isub; repeat (rewrite ck_ok by (unfold in_int; lia); cbn [rbind]); f_equal; lia.
Qed.

Definition inv2 (G : Z -> Z -> V) (f : store) : Prop :=
  (forall i j, 0 <= i < Nx -> 0 <= j < Ny -> f 0%nat 0 [i; j] = Some (xf i) /\ f 0%nat 1 [i; j] = Some (yf j)) /\
  (forall i j, 0 <= i < Nx -> 0 <= j < Ny -> f 1%nat 0 [i; j] = Some (G i j)).

Lemma ghost_y_ok t fl G f :
  (t, fl) = (RN, BN) \/ (t, fl) = (RP, BP) ->
  (forall i j, 0 <= i < Nx -> 0 <= j < Ny -> f 1%nat 0 [i; j] = Some (G i j)) ->
  ht F (at_st sh2 f) (ghost2_y chk t fl)
    (fun _ => at_st sh2 (over f [(1%nat, 0, fun s => ext_y Ny G (nth 0 s 0) (nth 1 s 0))] (in_boxb [region (1, Nx, 1) RIN; region (1, Ny, 1) t]))).
Proof.
  intros Ht HG. unfold ghost2_y.
  apply ht_over2 with (N := 2) (l0 := center) (l1 := center); [reflexivity|apply fits1x|apply fits1y|].
  intros i j f' Hi Hj Hag. cbn in Hi. eapply ht_let; [eapply ht_size2; reflexivity|].
  set (j' := refl Ny fl j).
  assert (Hj' : 0 <= j' < Ny) by (destruct Ht as [E|E]; injection E as -> ->; cbn in Hj; subst j'; unfold refl; lia).
  assert (Hjr : -1 <= j < Ny + 1) by (destruct Ht as [E|E]; injection E as -> ->; cbn in Hj; lia).
  eapply ht_lift_let; [apply (mirror2_y fl j Hjr)|]. fold j'.
  eapply ht_let; [apply (ht_get_st F chk sh2 f' (u2 0 i j') (G i j'))|].
  - apply uu2; lia.
  - rewrite look_u2, (Hag 1%nat 0 [i; j']); [apply HG; assumption|]. right. right. intros Hb.
    apply in_boxb_iff in Hb. clearbody j'.
    destruct Ht as [E|E]; injection E as -> ->; cbn [region] in Hb; rewrite outb2 in Hb by lia; discriminate Hb.
  - apply (ht_set1 F chk sh2 f' (u2 0 i j) (G i j') _ [i; j]).
    + apply uu2; lia.
    + apply slot2.
    + cbn [nth]. unfold ext_y, ext, j', refl. destruct Ht as [E|E]; injection E as -> ->; cbn in Hj.
      * destruct (Z.ltb_spec j 0); [reflexivity|lia].
      * destruct (Z.ltb_spec j 0); [lia|]. destruct (Z.leb_spec Ny j); [reflexivity|lia].
Qed.

Lemma ghost_x_ok t fl G f :
  (t, fl) = (RN, BN) \/ (t, fl) = (RP, BP) ->
  (forall i j, 0 <= i < Nx -> 0 <= j < Ny -> f 1%nat 0 [i; j] = Some (G i j)) ->
  ht F (at_st sh2 f) (ghost2_x chk neg t fl)
    (fun _ => at_st sh2 (over f [(1%nat, 0, fun s => ext_x neg Nx G (nth 0 s 0) (nth 1 s 0))] (in_boxb [region (1, Nx, 1) t; region (1, Ny, 1) RIN]))).
Proof.
  intros Ht HG. unfold ghost2_x.
  apply ht_over2 with (N := 2) (l0 := center) (l1 := center); [reflexivity|apply fits1x|apply fits1y|].
  intros i j f' Hi Hj Hag. cbn in Hj. eapply ht_let; [eapply ht_size2; reflexivity|].
  set (i' := refl Nx fl i).
  assert (Hi' : 0 <= i' < Nx) by (destruct Ht as [E|E]; injection E as -> ->; cbn in Hi; subst i'; unfold refl; lia).
  assert (Hir : -1 <= i < Nx + 1) by (destruct Ht as [E|E]; injection E as -> ->; cbn in Hi; lia).
  eapply ht_lift_let; [apply (mirror2_x fl i Hir)|]. fold i'.
  eapply ht_let; [apply (ht_get_st F chk sh2 f' (u2 0 i' j) (G i' j))|].
  - apply uu2; lia.
  - rewrite look_u2, (Hag 1%nat 0 [i'; j]); [apply HG; assumption|]. right. right. intros Hb.
    apply in_boxb_iff in Hb. clearbody i'.
    destruct Ht as [E|E]; injection E as -> ->; cbn [region] in Hb; rewrite outb2 in Hb by lia; discriminate Hb.
  - apply (ht_set1 F chk sh2 f' (u2 0 i j) (neg (G i' j)) _ [i; j]).
    + apply uu2; lia.
    + apply slot2.
    + cbn [nth]. unfold ext_x, i', refl. destruct Ht as [E|E]; injection E as -> ->; cbn in Hi.
      * destruct (Z.ltb_spec i 0); [reflexivity|lia].
      * destruct (Z.ltb_spec i 0); [lia|]. destruct (Z.leb_spec Nx i); [reflexivity|lia].
Qed.

Lemma pass2_ok G f :
  inv2 G f -> ht F (at_st sh2 f) (pass2 chk neg lapx lapy adv)
    (fun _ aw => exists f', at_st sh2 f' aw /\ inv2 (heat_step2 Nx Ny neg lapx lapy adv G) f').
Proof.
  intros [Hx Hu]. pose proof bx as Bx. pose proof by_ as By. unfold pass2.
  (* the four sides *)
  eapply ht_bind; [apply (ghost_y_ok RN BN G f); auto|]. intros [].
  match goal with |- ht _ (at_st _ ?x) _ _ => set (f1 := x) end.
  assert (Hu1 : forall i j, 0 <= i < Nx -> 0 <= j < Ny -> f1 1%nat 0 [i; j] = Some (G i j)).
  { intros i j Hi Hj. unfold f1. rewrite over_out by (apply outb2; lia). auto. }
  eapply ht_bind; [apply (ghost_y_ok RP BP G f1); auto|]. intros [].
  match goal with |- ht _ (at_st _ ?x) _ _ => set (f2 := x) end.
  assert (Hu2 : forall i j, 0 <= i < Nx -> 0 <= j < Ny -> f2 1%nat 0 [i; j] = Some (G i j)).
  { intros i j Hi Hj. unfold f2. rewrite over_out by (apply outb2; lia). auto. }
  eapply ht_bind; [apply (ghost_x_ok RN BN G f2); auto|]. intros [].
  match goal with |- ht _ (at_st _ ?x) _ _ => set (f3 := x) end.
  assert (Hu3 : forall i j, 0 <= i < Nx -> 0 <= j < Ny -> f3 1%nat 0 [i; j] = Some (G i j)).
  { intros i j Hi Hj. unfold f3. rewrite over_out by (apply outb2; lia). auto. }
  eapply ht_bind; [apply (ghost_x_ok RP BP G f3); auto|]. intros [].
  match goal with |- ht _ (at_st _ ?x) _ _ => set (f4 := x) end.
  assert (Hy4 : forall i j, 0 <= i < Nx -> -1 <= j < Ny + 1 -> f4 1%nat 0 [i; j] = Some (ext_y Ny G i j)).
  { intros i j Hi Hj. unfold f4. rewrite over_out by (apply outb2; lia). unfold f3. rewrite over_out by (apply outb2; lia).
    unfold f2. destruct (Z.lt_ge_cases j Ny) as [L|L].
    - rewrite over_out by (apply outb2; lia). destruct (Z.lt_ge_cases j 0) as [L0|L0].
      + unfold f1. erewrite over_hit; [|apply inb2; lia|reflexivity]. reflexivity.
      + rewrite Hu1 by lia. unfold ext_y, ext. destruct (Z.ltb_spec j 0); [lia|]. destruct (Z.leb_spec Ny j); [lia|reflexivity].
    - erewrite over_hit; [|apply inb2; lia|reflexivity]. reflexivity. }
  assert (Hx4 : forall i j, -1 <= i < Nx + 1 -> 0 <= j < Ny -> f4 1%nat 0 [i; j] = Some (ext_x neg Nx G i j)).
  { intros i j Hi Hj. unfold f4. destruct (Z.lt_ge_cases i Nx) as [L|L].
    - rewrite over_out by (apply outb2; lia). unfold f3. destruct (Z.lt_ge_cases i 0) as [L0|L0].
      + erewrite over_hit; [|apply inb2; lia|reflexivity]. reflexivity.
      + rewrite over_out by (apply outb2; lia). rewrite Hu2 by lia. unfold ext_x.
        destruct (Z.ltb_spec i 0); [lia|]. destruct (Z.leb_spec Nx i); [lia|reflexivity].
    - erewrite over_hit; [|apply inb2; lia|reflexivity]. reflexivity. }
  assert (Hu4 : forall i j, 0 <= i < Nx -> 0 <= j < Ny -> f4 1%nat 0 [i; j] = Some (G i j)).
  { intros i j Hi Hj. unfold f4. rewrite over_out by (apply outb2; lia). auto. }
  assert (Hc4 : forall i j, 0 <= i < Nx -> 0 <= j < Ny -> f4 0%nat 0 [i; j] = Some (xf i) /\ f4 0%nat 1 [i; j] = Some (yf j)).
  { intros i j Hi Hj. unfold f4, f3, f2, f1. rewrite !over_skip by reflexivity. auto. }
  clearbody f4. clear f3 f2 f1 Hu3 Hu2 Hu1 Hu Hx f. rename f4 into f.
  (* first dimension *)
  pose (L := fun i j => lapx (ext_x neg Nx G (i - 1) j) (G i j) (ext_x neg Nx G (i + 1) j)).
  eapply ht_bind.
  { apply (ht_over2 F chk sh2 f [(2%nat, 0, fun s => L (nth 0 s 0) (nth 1 s 0))]) with (N := 1) (l0 := center) (l1 := center) (n := 0) (i := Nx) (p := 0) (n1 := 0) (i1 := Ny) (p1 := 0);
      [reflexivity|apply fits0x|apply fits0y|].
    cbn [region fst snd]. intros i j f' Hi Hj Hag.
    assert (R : forall i, -1 <= i < Nx + 1 -> look f' (u2 0 i j) = Some (ext_x neg Nx G i j)).
    { intros k Hk. rewrite look_u2, Hag by (left; reflexivity). auto. }
    eapply ht_lift_let; [apply ck_ok; unfold in_int; lia|]. eapply ht_lift_let; [apply ck_ok; unfold in_int; lia|].
    eapply ht_let; [apply ht_get_st; [apply uu2; lia|apply R; lia]|].
    eapply ht_let; [apply (ht_get_st F chk sh2 f' (u2 0 i j) (G i j)); [apply uu2; lia|]|].
    { rewrite look_u2, Hag by (left; reflexivity). auto. }
    eapply ht_let; [apply ht_get_st; [apply uu2; lia|apply R; lia]|].
    apply (ht_set1 F chk sh2 f' (dudt2 i j)); [now apply ud2|apply slot2|]. reflexivity. }
  intros []. cbn [region].
  match goal with |- ht _ (at_st _ ?x) _ _ => set (f1 := x) end.
  assert (S1 : forall n s, f1 1%nat n s = f 1%nat n s /\ f1 0%nat n s = f 0%nat n s) by (intros; unfold f1; rewrite !over_skip by reflexivity; auto).
  assert (Hd1 : forall i j, 0 <= i < Nx -> 0 <= j < Ny -> f1 2%nat 0 [i; j] = Some (L i j)).
  { intros i j Hi Hj. unfold f1. erewrite over_hit; [|apply inb2; lia|reflexivity]. reflexivity. }
  clearbody f1.
  (* second dimension *)
  pose (L2 := fun i j => lapy (L i j) (ext_y Ny G i (j - 1)) (G i j) (ext_y Ny G i (j + 1))).
  eapply ht_bind.
  { apply (ht_over2 F chk sh2 f1 [(2%nat, 0, fun s => L2 (nth 0 s 0) (nth 1 s 0))]) with (N := 1) (l0 := center) (l1 := center) (n := 0) (i := Nx) (p := 0) (n1 := 0) (i1 := Ny) (p1 := 0);
      [reflexivity|apply fits0x|apply fits0y|].
    cbn [region fst snd]. intros i j f' Hi Hj Hag.
    assert (R : forall j, -1 <= j < Ny + 1 -> look f' (u2 0 i j) = Some (ext_y Ny G i j)).
    { intros k Hk. rewrite look_u2, Hag by (left; reflexivity). destruct (S1 0 [i; k]) as [-> _]. auto. }
    eapply ht_lift_let; [apply ck_ok; unfold in_int; lia|]. eapply ht_lift_let; [apply ck_ok; unfold in_int; lia|].
    eapply ht_let; [apply ht_get_st; [apply uu2; lia|apply R; lia]|].
    eapply ht_let; [apply (ht_get_st F chk sh2 f' (u2 0 i j) (G i j)); [apply uu2; lia|]|].
    { rewrite look_u2, Hag by (left; reflexivity). destruct (S1 0 [i; j]) as [-> _]. auto. }
    eapply ht_let; [apply ht_get_st; [apply uu2; lia|apply R; lia]|].
    eapply ht_let; [apply (ht_get_st F chk sh2 f' (dudt2 i j) (L i j)); [now apply ud2|]|].
    { rewrite look_d2, Hag by (right; left; reflexivity). auto. }
    apply (ht_set1 F chk sh2 f' (dudt2 i j)); [now apply ud2|apply slot2|]. reflexivity. }
  intros []. cbn [region].
  match goal with |- ht _ (at_st _ ?x) _ _ => set (f2 := x) end.
  assert (S2 : forall n s, f2 1%nat n s = f 1%nat n s /\ f2 0%nat n s = f 0%nat n s).
  { intros. unfold f2. rewrite !over_skip by reflexivity. apply S1. }
  assert (Hd2 : forall i j, 0 <= i < Nx -> 0 <= j < Ny -> f2 2%nat 0 [i; j] = Some (L2 i j)).
  { intros i j Hi Hj. unfold f2. erewrite over_hit; [|apply inb2; lia|reflexivity]. reflexivity. }
  clearbody f2.
  (* advance *)
  eapply ht_conseq.
  { apply (ht_over2 F chk sh2 f2 [(1%nat, 0, fun s => heat_step2 Nx Ny neg lapx lapy adv G (nth 0 s 0) (nth 1 s 0))]) with (N := 2) (l0 := center) (l1 := center) (n := 1) (i := Nx) (p := 1) (n1 := 1) (i1 := Ny) (p1 := 1);
      [reflexivity|apply fits1x|apply fits1y|].
    cbn [region fst snd]. intros i j f' Hi Hj Hag.
    eapply ht_let; [apply (ht_get_st F chk sh2 f' (dudt2 i j) (L2 i j)); [now apply ud2|]|].
    { rewrite look_d2, Hag by (left; reflexivity). auto. }
    eapply ht_let; [apply (ht_get_st F chk sh2 f' (u2 0 i j) (G i j)); [apply uu2; lia|]|].
    { rewrite look_u2, Hag by (right; left; reflexivity). destruct (S2 0 [i; j]) as [-> _]. auto. }
    apply (ht_set1 F chk sh2 f' (u2 0 i j)); [apply uu2; lia|apply slot2|]. reflexivity. }
  { auto. }
  intros ? aw HP. eexists. split; [exact HP|]. split.
  - intros i j Hi Hj. rewrite !over_skip by reflexivity. destruct (S2 0 [i; j]) as [_ ->]. destruct (S2 1 [i; j]) as [_ ->]. auto.
  - intros i j Hi Hj. erewrite over_hit; [|apply inb2; lia|reflexivity]. reflexivity.
Qed.

Lemma arrays2_ok :
  (forall t, (t < 6)%nat -> F t = false) ->
  ht F (fun aw => aw = a_start) (arrays2 chk Nx Ny) (fun _ aw => exists f, at_st sh2 f aw).
Proof.
  intros HF. pose proof bx as Bx. pose proof by_ as By. unfold arrays2.
  eapply ht_bind.
  { eapply ht_conseq; [apply (ht_new2 F chk 0 [] 2 1 Nx 1 1 Ny 1)|intros aw ->; split; reflexivity|];
      try (apply HF; lia); try lia; try (unfold shape_ok; lia).
    intros y aw HP. exact HP. }
  intros rr. cbn beta. cbn [app Nat.add]. clear rr.
  eapply ht_bind.
  { apply (ht_new2 F chk 2 _ 2 1 Nx 1 1 Ny 1); try (apply HF; lia); try lia; unfold shape_ok; lia. }
  intros rr. cbn beta. cbn [app Nat.add]. clear rr.
  eapply ht_bind.
  { apply (ht_new2 F chk 4 _ 1 0 Nx 0 0 Ny 0); try (apply HF; lia); try lia; try (unfold shape_ok; lia). }
  intros rr. cbn beta. cbn [app Nat.add]. clear rr.
  apply ht_ret. intros aw HP. eexists.
  exact (made_at 6 [(K2 2 center center, [(1, Nx, 1); (1, Ny, 1)]); (K2 2 center center, [(1, Nx, 1); (1, Ny, 1)]); (K2 1 center center, [(0, Nx, 0); (0, Ny, 0)])] aw HP).
Qed.

Lemma solve2_ok reps k fa :
  1 <= reps < UINT_MOD ->
  ht F (at_st sh2 fa) (solve2 chk reps k xf yf ini exact neg lapx lapy adv)
    (fun _ aw => exists f, at_st sh2 f aw /\
       inv2 (Nat.iter k (heat_step2 Nx Ny neg lapx lapy adv) (fun i j => ini (xf i) (yf j))) f /\
       forall i j, 0 <= i < Nx -> 0 <= j < Ny -> f 1%nat 1 [i; j] = Some (exact (xf i) (yf j))).
Proof.
  intros Hr. pose proof bx as Bx. pose proof by_ as By. unfold solve2.
  eapply ht_bind.
  { eapply ht_conseq; [|intros aw HP; exact HP|].
    - apply (ht_over2 F chk sh2 _ [(0%nat, 0, fun s => xf (nth 0 s 0)); (0%nat, 1, fun s => yf (nth 1 s 0))]) with (N := 2) (l0 := center) (l1 := center) (n := 1) (i := Nx) (p := 1) (n1 := 1) (i1 := Ny) (p1 := 1);
        [reflexivity|apply fits1x|apply fits1y|].
      cbn [region fst snd]. intros i j f' Hi Hj Hag.
      eapply ht_bind.
      { apply (ht_set1 F chk sh2 f' (x2 0 i j) (xf i) (fun s => xf (nth 0 s 0)) [i; j]); [apply ux2; lia|apply slot2|reflexivity]. }
      intros []. eapply ht_conseq.
      { apply (ht_set1 F chk sh2 (over f' [(0%nat, 0, fun s => xf (nth 0 s 0))] (zs_eqb [i; j])) (x2 1 i j) (yf j) (fun s => yf (nth 1 s 0)) [i; j]); [apply ux2; lia|apply slot2|reflexivity]. }
      { auto. }
      intros ? aw. apply at_st_ext. intros a n s. unfold over. cbn [pick x2 p_arr p_comp].
      destruct (zs_eqb [i; j] s); [|reflexivity].
      destruct (Nat.eqb a 0); cbn [andb]; [|reflexivity]. destruct (Z.eqb_spec n 1), (Z.eqb_spec n 0); try reflexivity; lia.
    - intros y aw HP. exact HP. }
  intros []. cbn [region].
  match goal with |- ht _ (at_st _ ?x) _ _ => set (f0 := x) end.
  set (X := fun f : store => forall i j, 0 <= i < Nx -> 0 <= j < Ny -> f 0%nat 0 [i; j] = Some (xf i) /\ f 0%nat 1 [i; j] = Some (yf j)).
  assert (X0 : X f0).
  { intros i j Hi Hj. unfold f0. split; (erewrite over_hit; [|apply inb2; lia|reflexivity]); reflexivity. }
  clearbody f0.
  set (G0 := fun i j => ini (xf i) (yf j)).
  set (stp := heat_step2 Nx Ny neg lapx lapy adv).
  eapply ht_bind.
  { eapply ht_conseq with (P' := fun aw => exists f, at_st sh2 f aw /\ X f) (Q' := fun _ aw => exists f, at_st sh2 f aw /\ inv2 (Nat.iter k stp G0) f);
      [|intros aw HP; exists f0; split; assumption|intros y aw HP; exact HP].
    apply ht_times; [exact Hr| |].
    2:{ intros aw (f & HP & HX & _). exists f. split; assumption. }
    apply ht_exists. intros f. apply ht_pre. intros aw0 [HP HX].
    eapply ht_conseq with (P' := at_st sh2 f); [|intros aw ->; exact HP|intros y aw H; exact H].
    eapply ht_bind.
    { apply (ht_over2 F chk sh2 f [(1%nat, 0, fun s => G0 (nth 0 s 0) (nth 1 s 0))]) with (N := 2) (l0 := center) (l1 := center) (n := 1) (i := Nx) (p := 1) (n1 := 1) (i1 := Ny) (p1 := 1);
        [reflexivity|apply fits1x|apply fits1y|].
      cbn [region fst snd]. intros i j f' Hi Hj Hag. destruct (HX i j Hi Hj) as [E0 E1].
      eapply ht_let; [apply (ht_get_st F chk sh2 f' (x2 0 i j) (xf i)); [apply ux2; lia|]|].
      { rewrite look_x2, Hag by (left; reflexivity). exact E0. }
      eapply ht_let; [apply (ht_get_st F chk sh2 f' (x2 1 i j) (yf j)); [apply ux2; lia|]|].
      { rewrite look_x2, Hag by (left; reflexivity). exact E1. }
      apply (ht_set1 F chk sh2 f' (u2 0 i j)); [apply uu2; lia|apply slot2|reflexivity]. }
    intros []. cbn [region].
    match goal with |- ht _ (at_st _ ?x) _ _ => set (f1 := x) end.
    eapply ht_conseq with (P' := fun aw => exists f, at_st sh2 f aw /\ inv2 (Nat.iter 0 stp G0) f).
    - apply (ht_passes F (fun j aw => exists f, at_st sh2 f aw /\ inv2 (Nat.iter j stp G0) f) k).
      intros j. apply ht_exists. intros f2. apply ht_pre. intros aw1 [HP1 HI1].
      eapply ht_conseq; [apply (pass2_ok _ f2 HI1)|intros aw ->; exact HP1|auto].
    - intros aw HP1. exists f1. split; [exact HP1|]. split.
      + intros i j Hi Hj. unfold f1. rewrite !over_skip by reflexivity. auto.
      + intros i j Hi Hj. unfold f1. erewrite over_hit; [|apply inb2; lia|reflexivity]. reflexivity.
    - auto. }
  intros []. apply ht_exists. intros f. apply ht_pre. intros aw0 (HP & HX & HU).
  eapply ht_conseq.
  { apply (ht_over2 F chk sh2 f [(1%nat, 1, fun s => exact (xf (nth 0 s 0)) (yf (nth 1 s 0)))]) with (N := 2) (l0 := center) (l1 := center) (n := 1) (i := Nx) (p := 1) (n1 := 1) (i1 := Ny) (p1 := 1);
      [reflexivity|apply fits1x|apply fits1y|].
    cbn [region fst snd]. intros i j f' Hi Hj Hag. destruct (HX i j Hi Hj) as [E0 E1].
    eapply ht_let; [apply (ht_get_st F chk sh2 f' (x2 0 i j) (xf i)); [apply ux2; lia|]|].
    { rewrite look_x2, Hag by (left; reflexivity). exact E0. }
    eapply ht_let; [apply (ht_get_st F chk sh2 f' (x2 1 i j) (yf j)); [apply ux2; lia|]|].
    { rewrite look_x2, Hag by (left; reflexivity). exact E1. }
    apply (ht_set1 F chk sh2 f' (u2 1 i j)); [apply uu2; lia|apply slot2|reflexivity]. }
  { intros aw ->. exact HP. }
  intros ? aw HP'. eexists. split; [exact HP'|]. split; [split|].
  - intros i j Hi Hj. rewrite !over_skip by reflexivity. auto.
  - intros i j Hi Hj. rewrite over_skip by reflexivity. auto.
  - intros i j Hi Hj. erewrite over_hit; [|apply inb2; lia|reflexivity]. reflexivity.
Qed.

Lemma heat2_ok reps k :
  1 <= reps < UINT_MOD -> (forall t, (t < 6)%nat -> F t = false) ->
  ht F (fun aw => aw = a_start) (heat2 chk Nx Ny reps k xf yf ini exact neg lapx lapy adv)
    (fun _ aw => exists f, at_st sh2 f aw /\
       inv2 (Nat.iter k (heat_step2 Nx Ny neg lapx lapy adv) (fun i j => ini (xf i) (yf j))) f /\
       forall i j, 0 <= i < Nx -> 0 <= j < Ny -> f 1%nat 1 [i; j] = Some (exact (xf i) (yf j))).
Proof.
  intros Hr HF. unfold heat2. eapply ht_bind; [apply (arrays2_ok HF)|]. intros []. apply ht_exists. intros f. now apply solve2_ok.
Qed.

End Heat2.

(** ** Example_D1_integration *)

Section Integration.
Variables (F : nat -> bool) (chk : bool) (N : Z).
Hypothesis HN : 1 <= N < INT_MAX.
Variables (xf : Z -> V) (root : V -> V) (zero : V) (add : V -> V -> V) (mean : V -> V).

Let shi : shapes := shapes_of [(K1 1 center, [(0, N, 0)]); (K1 2 center, [(0, N, 0)])].

Lemma uxi i : 0 <= i < N -> usable shi (xi i).
Proof. intros H1. exists (K1 1 center), [(0, N, 0)]. split; [reflexivity|]. cbn. unfold accepts. cbn. lia. Qed.
Lemma ufi n i : 0 <= n < 2 -> 0 <= i < N -> usable shi (fi n i).
Proof. intros H H1. exists (K1 2 center), [(0, N, 0)]. split; [reflexivity|]. cbn. unfold accepts. cbn. lia. Qed.

Lemma look_xi f i : look f (xi i) = f 0%nat 0 [i].
Proof. unfold look. cbn [xi p_arr p_comp p_at p_fl]. now rewrite slot1. Qed.
Lemma look_fi f n i : look f (fi n i) = f 1%nat n [i].
Proof. unfold look. cbn [fi p_arr p_comp p_at p_fl]. now rewrite slot1. Qed.
Lemma fitsi : dim_fits (0, N, 0).
Proof. unfold dim_fits. lia. Qed.

Definition fval (n i : Z) : V := if n =? 0 then xf i else root (xf i).

Definition filled (f : store) : Prop :=
  (forall i, 0 <= i < N -> f 0%nat 0 [i] = Some (xf i)) /\
  (forall n i, 0 <= n < 2 -> 0 <= i < N -> f 1%nat n [i] = Some (fval n i)).

Lemma fill_ok :
  (forall t, (t < 2)%nat -> F t = false) ->
  ht F (fun aw => aw = a_start)
    (do* _ := call chk (NewSized (K1 1 center) [(0, N, 0)]) in
     do* _ := call chk (NewSized (K1 2 center) [(0, N, 0)]) in
     over1 chk 0 RALL (fun i =>
       set chk (xi i) (xf i) ;;;
       (do* v := get chk (xi i) in set chk (fi 0 i) v) ;;;
       (do* v := get chk (xi i) in set chk (fi 1 i) (root v))))
    (fun _ aw => exists f, at_st shi f aw /\ filled f).
Proof.
  intros HF.
  eapply ht_bind.
  { eapply ht_conseq; [apply (ht_new1 F chk 0 [] 1 0 N 0)|intros aw ->; split; reflexivity|]; try (apply HF; lia); try lia; [unfold shape_ok; lia|].
    intros y aw HP. exact HP. }
  intros rr. cbn beta. cbn [app Nat.add]. clear rr.
  eapply ht_bind.
  { apply (ht_new1 F chk 1 _ 2 0 N 0); try (apply HF; lia); try lia. unfold shape_ok; lia. }
  intros rr. cbn beta. cbn [app Nat.add]. clear rr.
  eapply ht_conseq; [|exact (made_at 2 [(K1 1 center, [(0, N, 0)]); (K1 2 center, [(0, N, 0)])])|].
  - apply (ht_over1 F chk shi _ [(0%nat, 0, fun s => xf (nth 0 s 0)); (1%nat, 0, fun s => fval 0 (nth 0 s 0)); (1%nat, 1, fun s => fval 1 (nth 0 s 0))])
      with (N := 1) (l := center) (n := 0) (i := N) (p := 0); [reflexivity|apply fitsi|].
    cbn [region fst snd]. intros i f' Hi _.
    eapply ht_bind.
    { apply (ht_set1 F chk shi f' (xi i) (xf i) (fun s => xf (nth 0 s 0)) [i]); [apply uxi; lia|apply slot1|reflexivity]. }
    intros [].
    match goal with |- ht _ (at_st _ ?x) _ _ => set (f1 := x) end.
    assert (E1 : f1 0%nat 0 [i] = Some (xf i)).
    { unfold f1. erewrite over_hit; [|apply zs_eqb_eq; reflexivity|reflexivity]. reflexivity. }
    eapply ht_bind.
    { eapply ht_let; [apply (ht_get_st F chk shi f1 (xi i) (xf i)); [apply uxi; lia|now rewrite look_xi]|].
      apply (ht_set1 F chk shi f1 (fi 0 i) (xf i) (fun s => fval 0 (nth 0 s 0)) [i]); [apply ufi; lia|apply slot1|reflexivity]. }
    intros [].
    match goal with |- ht _ (at_st _ ?x) _ _ => set (f2 := x) end.
    assert (E2 : f2 0%nat 0 [i] = Some (xf i)).
    { unfold f2. now rewrite over_skip by reflexivity. }
    eapply ht_let; [apply (ht_get_st F chk shi f2 (xi i) (xf i)); [apply uxi; lia|now rewrite look_xi]|].
    eapply ht_conseq.
    { apply (ht_set1 F chk shi f2 (fi 1 i) (root (xf i)) (fun s => fval 1 (nth 0 s 0)) [i]); [apply ufi; lia|apply slot1|reflexivity]. }
    { auto. }
    intros ? aw. apply at_st_ext. intros a n s. unfold f2, f1, over. cbn [pick xi fi p_arr p_comp].
    destruct (zs_eqb [i] s); [|reflexivity].
    destruct a as [|[|a]]; cbn [Nat.eqb andb]; [destruct (n =? 0); reflexivity| |reflexivity].
    destruct (Z.eqb_spec n 1), (Z.eqb_spec n 0); try reflexivity; lia.
  - intros ? aw HP. eexists. split; [exact HP|]. cbn [region]. split.
    + intros i Hi. erewrite over_hit; [|apply inb1; lia|reflexivity]. reflexivity.
    + intros n i Hn Hi. assert (n = 0 \/ n = 1) as [->| ->] by lia;
        (erewrite over_hit; [|apply inb1; lia|reflexivity]); reflexivity.
Qed.

Definition sum_of (n : Z) : V := total add zero (map (fval n) (zrange 0 N)).

Lemma points1 b e : points [(b, e)] = map (fun i => [i]) (zrange b e).
Proof. cbn. induction (zrange b e) as [|x l IH]; [reflexivity|]. cbn. now rewrite IH. Qed.

Lemma sum_ok f h w aw n :
  at_st shi f aw -> filled f -> after F h w aw -> 0 <= n < 2 ->
  (do* sz := size_D1 1 in do* r := lift (srange1 chk sz RALL) in
   PD_Reduce_1D chk r zero (fun x xx => Ok (add x xx)) (fun i => get chk (fi n i))) w = Ret w (sum_of n).
Proof.
  intros HP Hf HA Hn.
  assert (Hsz : @size_D1 V 1 w = Ret w (mkSize1 N 0 0)).
  { destruct (ht_size1 F shi f 1 2 center 0 N 0 eq_refl h w aw HA HP) as (h' & w' & aw' & x & E & _ & -> & _).
    unfold size_D1 in *. destruct (find w 1) as [[? [o| |]]|]; try discriminate E. injection E as _ ->. reflexivity. }
  unfold bind at 1. rewrite Hsz.
  destruct (regions_D1 chk 0 N 0 fitsi) as (_ & _ & _ & _ & _ & Hr & _). destruct (Hr RALL) as (r & Er & Efc).
  rewrite dim_fits_mk1 in Er by apply fitsi. rewrite Er, bind_lift_ok.
  assert (HB : box_ordered (faces1 r)).
  { rewrite Efc. repeat constructor; cbn; unfold in_int; lia. }
  rewrite reduce_D1 by exact HB. rewrite Efc. cbn [region].
  assert (E : forall l acc, (forall q, In q l -> in_box [(0, N)] q) ->
    reduce_run (fun x xx => Ok (add x xx)) l (call1 (fun i => get chk (fi n i))) acc zero w =
    reduce_run (fun x xx => Ok (add x xx)) l (fun q => ret (fval n (nth 0 q 0))) acc zero w).
  { induction l as [|q l IH]; intros acc Hl; [reflexivity|]. cbn [reduce_run].
    assert (Hq : 0 <= nth 0 q 0 < N).
    { specialize (Hl q (or_introl eq_refl)). apply in_box_cons in Hl. destruct Hl as (x & q' & -> & Hx & _). exact Hx. }
    unfold bind at 1 3. unfold call1 at 1.
    assert (U : usable (shp aw) (fi n (nth 0 q 0))) by (eapply at_store_usable; [exact HP|now apply ufi]).
    destruct (get_ok chk F h w aw (fi n (nth 0 q 0)) (fval n (nth 0 q 0)) HA U) as (c & Eg & _).
    { destruct HP as (_ & _ & HP). rewrite HP, look_fi. now apply Hf. }
    rewrite Eg. unfold ret at 1. unfold bind, lift. apply IH. intros q' Hq'. apply Hl. now right. }
  change (- 0) with 0. replace (N + 0) with N by lia.
  rewrite E by (intros q; apply in_points). rewrite reduce_run_pure. unfold sum_of, total. f_equal. f_equal.
  rewrite points1. generalize zero. induction (zrange 0 N) as [|x l IH]; intros acc; [reflexivity|]. cbn [map fold_left]. apply IH.
Qed.

Lemma times_concat {S} (w : S) (l : list V) (body : M (S * list V) unit) n :
  (forall out, body (w, out) = Ret (w, out ++ l) tt) ->
  forall zs out, length zs = n -> run zs (fun _ : Z => body) (w, out) = Ret (w, out ++ concat (repeat l n)) tt.
Proof.
  intros H. revert n. intros n zs. revert n. induction zs as [|z zs IH]; intros n out E; subst n; cbn [length repeat concat run].
  - now rewrite app_nil_r.
  - unfold bind. rewrite H, (IH _ _ eq_refl), <- app_assoc. reflexivity.
Qed.

Lemma integration_ok reps :
  0 <= reps < UINT_MOD -> (forall t, (t < 2)%nat -> F t = false) ->
  exists h w aw f, integration chk N reps xf root zero add mean (start F, []) =
    Ret (w, concat (repeat [mean (sum_of 0); mean (sum_of 1)] (Z.to_nat reps))) tt /\
    after F h w aw /\ at_st shi f aw /\ filled f.
Proof.
  intros Hr HF. destruct (fill_ok HF [] (start F) a_start) as (h & w & aw & [] & E & [HA _] & f & HP & Hf).
  { apply after_start. }
  { reflexivity. }
  exists h, w, aw, f. split; [|split; [exact HA|split; assumption]].
  unfold integration. unfold bind at 1, on_fst at 1. rewrite E.
  unfold exec_time. rewrite for_uint_run by lia.
  rewrite (times_concat w [mean (sum_of 0); mean (sum_of 1)] _ (Z.to_nat reps)).
  - reflexivity.
  - intros out. unfold PD_For_N. rewrite for_uint_run by lia. change (zrange 0 2) with [0; 1]. cbn [run].
    unfold bind at 1 2. unfold on_fst at 1. rewrite (sum_ok f h w aw 0 HP Hf HA) by lia. unfold upd_snd at 1. cbn [fst snd].
    unfold bind at 1 2. unfold on_fst at 1. rewrite (sum_ok f h w aw 1 HP Hf HA) by lia. unfold upd_snd at 1. cbn [fst snd].
    rewrite <- app_assoc. reflexivity.
  - unfold zrange. now rewrite map_length, seq_length, Z.sub_0_r.
Qed.

End Integration.

(** ** The final statements *)

Lemma at_st_cell F h w aw sh f p : after F h w aw -> at_st sh f aw -> usable sh p -> cell w p (look f p).
Proof.
  intros HA HP HU. apply (cell_iff F h w aw p (look f p) HA); [exact (proj1 HP)|].
  split; [eapply at_store_usable; eassumption|]. apply HP.
Qed.

Lemma heat1_final F chk N reps k (xf : Z -> V) cosf exact lap adv :
  2 <= N <= 1073741824 -> 1 <= reps < UINT_MOD -> (forall t, (t < 3)%nat -> F t = false) ->
  exists h w aw, heat1 chk N reps k xf cosf exact lap adv (start F) = Ret w tt /\ after F h w aw /\ intact aw /\
    forall i, 0 <= i < N ->
      cell w (u1 0 i) (Some (Nat.iter k (heat_step N lap adv) (fun i => cosf (xf i)) i)) /\
      cell w (u1 1 i) (Some (exact (xf i))).
Proof.
  intros HN Hr HF.
  destruct (heat1_ok F chk N HN xf cosf exact lap adv reps k Hr HF [] (start F) a_start (after_start F) eq_refl)
    as (h & w & aw & [] & E & [HA _] & f & HP & Hi & He).
  exists h, w, aw. split; [exact E|]. split; [exact HA|]. split; [exact (proj1 HP)|]. intros i Hb. split.
  - rewrite <- (proj2 Hi i Hb), <- look_u. eapply at_st_cell; [exact HA|exact HP|]. apply uu; lia.
  - rewrite <- (He i Hb), <- look_u. eapply at_st_cell; [exact HA|exact HP|]. apply uu; lia.
Qed.

Lemma heat2_final F chk Nx Ny reps k (xf yf : Z -> V) ini exact neg lapx lapy adv :
  2 <= Nx -> 2 <= Ny -> 2 * ((Nx + 2) * (Ny + 2)) < UINT_MOD -> 1 <= reps < UINT_MOD -> (forall t, (t < 6)%nat -> F t = false) ->
  exists h w aw, heat2 chk Nx Ny reps k xf yf ini exact neg lapx lapy adv (start F) = Ret w tt /\ after F h w aw /\ intact aw /\
    forall i j, 0 <= i < Nx -> 0 <= j < Ny ->
      cell w (u2 0 i j) (Some (Nat.iter k (heat_step2 Nx Ny neg lapx lapy adv) (fun i j => ini (xf i) (yf j)) i j)) /\
      cell w (u2 1 i j) (Some (exact (xf i) (yf j))).
Proof.
  intros HNx HNy HN Hr HF.
  destruct (heat2_ok F chk Nx Ny HNx HNy HN xf yf ini exact neg lapx lapy adv reps k Hr HF [] (start F) a_start (after_start F) eq_refl)
    as (h & w & aw & [] & E & [HA _] & f & HP & Hi & He).
  exists h, w, aw. split; [exact E|]. split; [exact HA|]. split; [exact (proj1 HP)|]. intros i j Hb Hb'. split.
  - rewrite <- (proj2 Hi i j Hb Hb'), <- look_u2. eapply at_st_cell; [exact HA|exact HP|]. apply uu2; lia.
  - rewrite <- (He i j Hb Hb'), <- look_u2. eapply at_st_cell; [exact HA|exact HP|]. apply uu2; lia.
Qed.

Lemma integration_final F chk N reps (xf : Z -> V) root zero add mean :
  1 <= N < INT_MAX -> 0 <= reps < UINT_MOD -> (forall t, (t < 2)%nat -> F t = false) ->
  exists h w aw, integration chk N reps xf root zero add mean (start F, []) =
    Ret (w, concat (repeat [mean (total add zero (map xf (zrange 0 N)));
                            mean (total add zero (map (fun i => root (xf i)) (zrange 0 N)))] (Z.to_nat reps))) tt /\
    after F h w aw /\ intact aw /\
    forall i, 0 <= i < N -> cell w (xi i) (Some (xf i)) /\ cell w (fi 0 i) (Some (xf i)) /\ cell w (fi 1 i) (Some (root (xf i))).
Proof.
  intros HN Hr HF. destruct (integration_ok F chk N HN xf root zero add mean reps Hr HF) as (h & w & aw & f & E & HA & HP & Hx & Hf).
  exists h, w, aw. split; [exact E|]. split; [exact HA|]. split; [exact (proj1 HP)|]. intros i Hi.
  split; [|split].
  - rewrite <- (Hx i Hi), <- look_xi. eapply at_st_cell; [exact HA|exact HP|]. now apply uxi.
  - change (xf i) with (fval xf root 0 i). rewrite <- (Hf 0 i) by lia. rewrite <- look_fi. eapply at_st_cell; [exact HA|exact HP|]. apply ufi; lia.
  - change (root (xf i)) with (fval xf root 1 i). rewrite <- (Hf 1 i) by lia. rewrite <- look_fi. eapply at_st_cell; [exact HA|exact HP|]. apply ufi; lia.
Qed.

End Examples.
