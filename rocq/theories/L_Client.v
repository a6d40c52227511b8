(** Client code with loops, on the abstract machine. *)

From Coq Require Import ZArith List Bool Lia Sorted.
From Verif Require Import Base M_Flags M_Loop M_RS1 M_RS2 M_RS3 M_Heap M_PD1 M_PD2 M_PD3 M_World M_Client
  Spec Spec_Loop Spec_Array Spec_Hist Spec_Reach Spec_Mode Spec_Client
  L_Base L_RS L_Range L_Loop L_Heap L_Lin L_Rep L_PD1 L_PD2 L_PD3 L_Kind L_Copy L_World L_Sim L_Access L_Copies.
From Verif Require L_Mode.
Import ListNotations.
Open Scope Z_scope.

Section Client.
Context {V : Type}.
Implicit Types (w : world V) (aw : aworld V) (h : list (op V)) (p : elt).

(** ** The abstract machine seen as a store *)

Definition shp aw a : option (kind * list dim_shape) :=
  match afind aw a with Some (k, ALive gs _) => Some (k, gs) | _ => None end.
Definition st aw p : option V :=
  match afind aw (p_arr p) with Some (k, ALive gs f) => f (p_comp p) (slot_of (p_at p) (p_fl p)) | _ => None end.

Definition usable (sh : nat -> option (kind * list dim_shape)) p : Prop :=
  exists k gs, sh (p_arr p) = Some (k, gs) /\ accepts k gs (p_comp p) (p_at p) (p_fl p).

Definition like aw aw' : Prop := (forall a, shp aw' a = shp aw a) /\ (intact aw -> intact aw').

Lemma like_refl aw : like aw aw.
Proof. split; auto. Qed.
Lemma like_trans a b c : like a b -> like b c -> like a c.
Proof. intros [H1 H2] [H3 H4]. split; [|auto]. intros x. now rewrite H3. Qed.

Lemma usable_like aw aw' p : like aw aw' -> usable (shp aw) p -> usable (shp aw') p.
Proof. intros [H _] (k & gs & E & Ha). exists k, gs. now rewrite H. Qed.

Definition same_eltb p p' : bool :=
  Nat.eqb (p_arr p) (p_arr p') && ((p_comp p =? p_comp p') && zs_eqb (slot_of (p_at p) (p_fl p)) (slot_of (p_at p') (p_fl p'))).

Lemma same_eltb_iff p p' : same_eltb p p' = true <-> same_elt p p'.
Proof.
  unfold same_eltb, same_elt. rewrite !andb_true_iff, Nat.eqb_eq, Z.eqb_eq, zs_eqb_eq. reflexivity.
Qed.

Lemma same_st aw p p' : same_elt p p' -> st aw p = st aw p'.
Proof. intros (E1 & E2 & E3). unfold st. now rewrite E1, E2, E3. Qed.

Lemma afind_with aw a x y a' :
  afind aw a = Some y -> afind (with_arr aw a x) a' = if Nat.eqb a' a then x else afind aw a'.
Proof.
  intros H. unfold with_arr. rewrite afind_put.
  - destruct (Nat.eq_dec a' a) as [->|N]; [now rewrite Nat.eqb_refl|]. apply Nat.eqb_neq in N. now rewrite N.
  - unfold afind in H. destruct (nth_error (arrs aw) a) eqn:E; [|discriminate H]. apply nth_error_Some. now rewrite E.
Qed.

(** ** Cells *)

Lemma cell_iff F h w aw p v :
  after F h w aw -> intact aw -> (cell w p v <-> usable (shp aw) p /\ st aw p = v).
Proof.
  intros HA HI. split.
  - intros (k & o & Hf & Hac & Hr). destruct (after_find _ _ _ _ _ _ _ HA Hf) as (x & own & lk & Ha & HN & Hrep & _).
    destruct x as [|gs f|gs nb]; [destruct (reads_empty _ _ _ _ _ _ _ Hrep Hr)| |destruct (HI _ _ _ _ Ha)].
    pose proof (rep_size _ _ _ _ _ Hrep) as Hs. cbn in Hs. rewrite Hs in Hac.
    apply (reads_rep w k o gs f (own (p_arr p)) _ _ _ HN Hrep) in Hr. destruct Hr as (_ & _ & ->).
    unfold usable, shp, st. rewrite Ha. split; [|reflexivity]. eauto.
  - intros ((k & gs & Es & Hac) & Ev). unfold shp in Es.
    destruct (afind aw (p_arr p)) as [[k' [|gs' f|]]|] eqn:Ea; try discriminate Es. injection Es as -> ->.
    destruct (find w (p_arr p)) as [[k' o]|] eqn:Ef.
    2:{ apply (after_afind _ _ _ _ _ HA) in Ef. rewrite Ef in Ea. discriminate Ea. }
    destruct (after_find _ _ _ _ _ _ _ HA Ef) as (x & own & lk & Ha & HN & Hrep & _).
    rewrite Ea in Ha. injection Ha as <- <-. exists k, o. split; [exact Ef|].
    pose proof (rep_size _ _ _ _ _ Hrep) as Hs. cbn in Hs. rewrite Hs. split; [exact Hac|].
    apply (reads_rep w k o gs f (own (p_arr p)) _ _ _ HN Hrep). split; [apply Hac|]. split; [apply slot_of_in, Hac|].
    unfold st in Ev. rewrite Ea in Ev. now symmetry.
Qed.

(** ** Single calls *)

Lemma call_ok chk F h w aw c :
  after F h w aw -> legal aw c -> (forall e, snd (astep F aw c) <> RExn e) ->
  exists w', call chk c w = Ret w' (snd (astep F aw c)) /\ after F (h ++ [c]) w' (fst (astep F aw c)).
Proof.
  intros HA Hc Hr. destruct (after_step F h w aw c HA Hc) as (w' & E & HA'). exists w'. split; [|exact HA'].
  assert (E' : step chk w c = Some (w', snd (astep F aw c))).
  { destruct chk; [exact E|]. apply L_Mode.step_sim; [exact E|]. unfold unchecked_result.
    destruct (snd (astep F aw c)) as [|e| |] eqn:X; try exact I. destruct (Hr e eq_refl). }
  unfold call. rewrite E'. destruct (snd (astep F aw c)) as [| e | |] eqn:X; try reflexivity. destruct (Hr e eq_refl).
Qed.

Lemma usable_legal F h w aw p :
  after F h w aw -> usable (shp aw) p ->
  legal_access aw (p_arr p) (p_comp p) (p_at p) (p_fl p) /\
  exists k gs f, afind aw (p_arr p) = Some (k, ALive gs f) /\ access_error (k_N k) (k_locs k) gs (p_comp p) (p_at p) (p_fl p) = None.
Proof.
  intros HA (k & gs & Es & Hac). unfold shp in Es.
  destruct (afind aw (p_arr p)) as [[k' [|gs' f|]]|] eqn:Ea; try discriminate Es. injection Es as -> ->.
  destruct (after_rel _ _ _ _ HA) as (own & lk & HR). pose proof (r_arr _ _ _ _ _ HR (p_arr p)) as Ho.
  rewrite Ea in Ho. unfold entry_ok in Ho. destruct (find w (p_arr p)) as [[k' o]|] eqn:Ef; [|contradiction].
  destruct Ho as (-> & HN & Hrep). destruct Hac as [Hn Hok]. destruct (dims_ok_lengths _ _ _ _ Hok) as (L1 & L2 & L3).
  split.
  - unfold legal_access, exists_arr. rewrite Ea. split; [|split; [|split; [|split]]]; try assumption.
    + unfold kok in HN. unfold in_uint. lia.
    + eapply dims_ok_int; [|exact Hok]. apply Hrep.
    + exact I.
  - exists k, gs, f. split; [reflexivity|]. apply accepts_iff; [assumption..|lia|split; assumption].
Qed.

(** Calls that end the life of no element. *)
Definition tame (c : op V) : Prop := match c with Clear _ | Realloc _ _ | Destroy _ => False | _ => True end.

Lemma get_ok chk F h w aw p v :
  after F h w aw -> usable (shp aw) p -> st aw p = Some v ->
  exists c, get chk p w = Ret w v /\ after F (h ++ [c]) w aw /\ tame c.
Proof.
  intros HA HU Hv. destruct (usable_legal _ _ _ _ _ HA HU) as (HL & k & gs & f & Ea & Ee).
  set (c := Read (p_arr p) (p_comp p) (p_at p) (p_fl p) : op V). exists c.
  assert (E : astep F aw c = (aw, RVal (Some v))).
  { cbn. rewrite Ea. cbn. rewrite Ee. unfold st in Hv. rewrite Ea in Hv. now rewrite Hv. }
  destruct (call_ok chk F h w aw c HA HL) as (w' & E1 & HA').
  { intros e. rewrite E. discriminate. }
  rewrite E in E1, HA'. cbn in E1, HA'.
  assert (w' = w).
  { clear - E1. unfold call in E1. destruct (step chk w c) as [[w1 r]|] eqn:Es; [|discriminate E1].
    unfold c in Es. cbn in Es. destruct (find w (p_arr p)) as [[k o]|]; [|discriminate Es].
    unfold on_mem, gets in Es.
    destruct (let* x := m_at chk k (heap w) o (p_comp p) (p_at p) (p_fl p) in fetch (heap w) x); try discriminate Es;
      injection Es as <- <-; try discriminate E1. injection E1 as <- _. now destruct w. }
  subst w'. split; [|split; [exact HA'|exact I]]. unfold get, bind. fold c. now rewrite E1.
Qed.

Lemma set_ok chk F h w aw p v :
  after F h w aw -> usable (shp aw) p ->
  exists c w' aw', set chk p v w = Ret w' tt /\ (after F (h ++ [c]) w' aw' /\ tame c) /\ like aw aw' /\
    (forall p', st aw' p' = if same_eltb p' p then Some v else st aw p').
Proof.
  intros HA HU. destruct (usable_legal _ _ _ _ _ HA HU) as (HL & k & gs & f & Ea & Ee).
  set (c := Write (p_arr p) (p_comp p) (p_at p) (p_fl p) v : op V). exists c.
  assert (E : astep F aw c = (with_arr aw (p_arr p) (Some (k, ALive gs (put_at f (p_comp p) (slot_of (p_at p) (p_fl p)) (Some v)))), RDone)).
  { cbn. rewrite Ea. cbn. now rewrite Ee. }
  destruct (call_ok chk F h w aw c HA HL) as (w' & E1 & HA').
  { intros e. rewrite E. discriminate. }
  rewrite E in E1, HA'. cbn [fst snd] in E1, HA'.
  match type of HA' with after _ _ _ ?x => set (aw' := x) in * end.
  assert (Hat : forall a, afind aw' a = if Nat.eqb a (p_arr p) then Some (k, ALive gs (put_at f (p_comp p) (slot_of (p_at p) (p_fl p)) (Some v))) else afind aw a).
  { intros a. unfold aw'. apply (afind_with _ _ _ _ _ Ea). }
  exists w', aw'. split; [|split; [split; [exact HA'|exact I]|split]].
  - unfold set, bind. fold c. now rewrite E1.
  - split.
    + intros a. unfold shp. rewrite Hat. destruct (Nat.eqb_spec a (p_arr p)) as [->|]; [now rewrite Ea|reflexivity].
    + intros HI a k' gs' nb. rewrite Hat. destruct (Nat.eqb a (p_arr p)); [discriminate|apply HI].
  - intros p'. unfold st, same_eltb. rewrite Hat. destruct (Nat.eqb_spec (p_arr p') (p_arr p)) as [->|]; [|reflexivity].
    rewrite Ea. reflexivity.
Qed.

(** ** Triples *)

Lemma Forall2_imp {A B} (P Q : A -> B -> Prop) l m : (forall x y, P x y -> Q x y) -> Forall2 P l m -> Forall2 Q l m.
Proof. intros H. induction 1; constructor; auto. Qed.

Definition ht {A} F (P : aworld V -> Prop) (m : M (world V) A) (Q : A -> aworld V -> Prop) : Prop :=
  forall h w aw, after F h w aw -> P aw ->
    exists h' w' aw' x, m w = Ret w' x /\ (after F (h ++ h') w' aw' /\ Forall tame h') /\ Q x aw'.

Lemma ht_ret {A} F (P : aworld V -> Prop) (x : A) (Q : A -> aworld V -> Prop) :
  (forall aw, P aw -> Q x aw) -> ht F P (ret x) Q.
Proof. intros H h w aw HA HP. exists [], w, aw, x. rewrite app_nil_r. split; [reflexivity|]. split; [split; [exact HA|constructor]|auto]. Qed.

Lemma ht_lift {A} F (P : aworld V -> Prop) (r : res A) x (Q : A -> aworld V -> Prop) :
  r = Ok x -> (forall aw, P aw -> Q x aw) -> ht F P (lift r) Q.
Proof. intros -> H h w aw HA HP. exists [], w, aw, x. rewrite app_nil_r. split; [reflexivity|]. split; [split; [exact HA|constructor]|auto]. Qed.

Lemma ht_bind {A B} F P (m : M (world V) A) Q (k : A -> M (world V) B) R :
  ht F P m Q -> (forall x, ht F (Q x) (k x) R) -> ht F P (bind m k) R.
Proof.
  intros H1 H2 h w aw HA HP. destruct (H1 h w aw HA HP) as (h1 & w1 & aw1 & x & E1 & [A1 T1] & Q1).
  destruct (H2 x _ _ _ A1 Q1) as (h2 & w2 & aw2 & y & E2 & [A2 T2] & Q2).
  exists (h1 ++ h2), w2, aw2, y. unfold bind. rewrite E1, app_assoc. split; [exact E2|]. split; [|exact Q2]. split; [exact A2|]. apply Forall_app. auto.
Qed.

Lemma ht_conseq {A} F (P P' : aworld V -> Prop) (m : M (world V) A) (Q Q' : A -> aworld V -> Prop) :
  ht F P' m Q' -> (forall aw, P aw -> P' aw) -> (forall x aw, Q' x aw -> Q x aw) -> ht F P m Q.
Proof.
  intros H H1 H2 h w aw HA HP. destruct (H h w aw HA (H1 _ HP)) as (h1 & w1 & aw1 & x & E1 & A1 & Q1). eauto 10.
Qed.

(** [P] may be used to choose the rule. *)
Lemma ht_pre {A} F (P : aworld V -> Prop) (m : M (world V) A) Q :
  (forall aw0, P aw0 -> ht F (fun aw => aw = aw0) m Q) -> ht F P m Q.
Proof. intros H h w aw HA HP. exact (H aw HP h w aw HA eq_refl). Qed.

Lemma ht_get F chk (P : aworld V -> Prop) p v :
  (forall aw, P aw -> usable (shp aw) p /\ st aw p = Some v) -> ht F P (get chk p) (fun x aw => x = v /\ P aw).
Proof.
  intros H h w aw HA HP. destruct (H aw HP) as [H1 H2].
  destruct (get_ok chk F h w aw p v HA H1 H2) as (c & E & HA' & HT). exists [c], w, aw, v. split; [exact E|]. split; [split; [exact HA'|repeat constructor; exact HT]|auto].
Qed.

Lemma ht_get_all F chk (P : aworld V -> Prop) ps vs :
  (forall aw, P aw -> Forall2 (fun p v => usable (shp aw) p /\ st aw p = Some v) ps vs) ->
  ht F P (get_all chk ps) (fun x aw => x = vs /\ P aw).
Proof.
  revert vs. induction ps as [|p ps IH]; intros vs H h w aw HA HP; pose proof (H aw HP) as X; cbn [get_all].
  - inversion X; subst. exists [], w, aw, []. rewrite app_nil_r. split; [reflexivity|]. split; [split; [exact HA|constructor]|auto].
  - inversion X as [|? v ? vs' [Hu Hv] Hvs]; subst.
    destruct (get_ok chk F h w aw p v HA Hu Hv) as (c & E & HA' & HT).
    destruct (IH vs') with (h := h ++ [c]) (w := w) (aw := aw) as (h' & w' & aw' & x & E' & [HA2 HT2] & -> & HP').
    + intros aw1 HP1. specialize (H aw1 HP1). now inversion H.
    + exact HA'.
    + exact HP.
    + exists (c :: h'), w', aw', (v :: vs'). unfold bind. rewrite E, E'. split; [reflexivity|]. split; [|auto].
      rewrite <- app_assoc in HA2. split; [exact HA2|constructor; assumption].
Qed.

(** Assignment: the state before is described by shapes and a store. *)
Definition at_store (sh : nat -> option (kind * list dim_shape)) (f : elt -> option V) aw : Prop :=
  intact aw /\ (forall a, shp aw a = sh a) /\ (forall p, st aw p = f p).

Lemma at_store_usable sh f aw p : at_store sh f aw -> usable sh p -> usable (shp aw) p.
Proof. intros (_ & H & _) (k & gs & E & Ha). exists k, gs. now rewrite H. Qed.

Definition put (f : elt -> option V) p v : elt -> option V := fun p' => if same_eltb p' p then Some v else f p'.

Lemma ht_set F chk sh f p v :
  usable sh p -> ht F (at_store sh f) (set chk p v) (fun _ => at_store sh (put f p v)).
Proof.
  intros HU h w aw HA HP. destruct (set_ok chk F h w aw p v HA (at_store_usable _ _ _ _ HP HU)) as (c & w' & aw' & E & [HA' HT] & HL & Hs).
  destruct HP as (H1 & H2 & H3). exists [c], w', aw', tt. split; [exact E|]. split; [split; [exact HA'|repeat constructor; exact HT]|]. split; [apply HL, H1|]. split.
  - intros a. destruct HL as [HL _]. now rewrite HL.
  - intros p'. rewrite Hs, H3. reflexivity.
Qed.

Lemma ht_assign F chk sh f p ps g vs :
  usable sh p -> Forall2 (fun p v => usable sh p /\ f p = Some v) ps vs ->
  ht F (at_store sh f) (assign chk p ps g) (fun _ => at_store sh (put f p (g vs))).
Proof.
  intros HU Hs. unfold assign. eapply ht_bind.
  - apply (ht_get_all F chk _ ps vs). intros aw HP. eapply Forall2_imp; [|exact Hs]. cbn.
    intros p' v [H1 H2]. split; [eapply at_store_usable; eassumption|]. destruct HP as (_ & _ & HP). now rewrite HP.
  - intros x h w aw HA [-> HP]. exact (ht_set F chk sh f p (g vs) HU h w aw HA HP).
Qed.

(** Running a body over a list. *)
Lemma ht_run {A} F (I : list A -> aworld V -> Prop) l (body : A -> M (world V) unit) :
  (forall l1 q l2, l = l1 ++ q :: l2 -> ht F (I l1) (body q) (fun _ => I (l1 ++ [q]))) ->
  ht F (I []) (run l body) (fun _ => I l).
Proof.
  intros H. enough (T : forall l2 l1, l = l1 ++ l2 -> ht F (I l1) (run l2 body) (fun _ => I l)) by (apply (T l []); reflexivity).
  induction l2 as [|q l2 IH]; intros l1 E; cbn [run].
  - apply ht_ret. intros aw. now rewrite E, app_nil_r.
  - eapply ht_bind; [apply (H l1 q l2 E)|]. intros ?. apply IH. now rewrite <- app_assoc.
Qed.

(** ** Loops of assignments *)

Definition vals (f : elt -> option V) (ps : list elt) : list V :=
  flat_map (fun p => match f p with Some v => [v] | None => [] end) ps.

Lemma vals_spec f ps : (forall p, In p ps -> f p <> None) -> Forall2 (fun p v => f p = Some v) ps (vals f ps).
Proof.
  induction ps as [|p ps IH]; intros H; [constructor|]. cbn. destruct (f p) as [v|] eqn:E; [|destruct (H p); [now left|exact E]].
  constructor; [exact E|]. apply IH. intros p' Hp. apply H. now right.
Qed.

Lemma vals_eq f ps vs : Forall2 (fun p v => f p = Some v) ps vs -> vals f ps = vs.
Proof. induction 1 as [|p v ps vs E _ IH]; [reflexivity|]. unfold vals in *. cbn. rewrite E, IH. reflexivity. Qed.

Section Loop.
Context {A : Type} (tgt : A -> elt) (srcs : A -> list elt) (g : A -> list V -> V).

Definition put1 (f : elt -> option V) (q : A) := put f (tgt q) (g q (vals f (srcs q))).
Definition fin (f : elt -> option V) (l : list A) := fold_left put1 l f.

Lemma fin_snoc f l q : fin f (l ++ [q]) = put1 (fin f l) q.
Proof. unfold fin. now rewrite fold_left_app. Qed.

Lemma put_hit f p v p' : same_elt p' p -> put f p v p' = Some v.
Proof. intros H. apply same_eltb_iff in H. unfold put. now rewrite H. Qed.
Lemma put_miss f p v p' : ~ same_elt p' p -> put f p v p' = f p'.
Proof. intros H. unfold put. destruct (same_eltb p' p) eqn:E; [|reflexivity]. apply same_eltb_iff in E. contradiction. Qed.

Lemma fin_none f l p : (forall q, In q l -> ~ same_elt p (tgt q)) -> fin f l p = f p.
Proof.
  revert f. induction l as [|q l IH]; intros f H; [reflexivity|]. cbn. fold (fin (put1 f q) l). rewrite IH.
  - apply put_miss, H. now left.
  - intros q' Hq'. apply H. now right.
Qed.

Lemma fin_some f l p : (exists q, In q l /\ same_elt p (tgt q)) -> fin f l p <> None.
Proof.
  revert f. induction l as [|q l IH] using rev_ind; intros f (q' & Hq' & Hs); [destruct Hq'|]. rewrite fin_snoc.
  unfold put1, put. destruct (same_eltb p (tgt q)) eqn:E; [discriminate|]. apply IH. exists q'. split; [|exact Hs].
  apply in_app_or in Hq'. destruct Hq' as [?|[->|[]]]; [assumption|]. apply same_eltb_iff in Hs. congruence.
Qed.

Lemma fin_keep f l p : f p <> None -> fin f l p <> None.
Proof.
  revert f. induction l as [|q l IH]; intros f H; [exact H|]. cbn. apply IH. unfold put1, put.
  destruct (same_eltb p (tgt q)); [discriminate|exact H].
Qed.

Lemma ht_loop F sh f0 l (body : A -> M (world V) unit) :
  (forall q f, In q l -> (forall p, In p (srcs q) -> f p <> None) ->
     ht F (at_store sh f) (body q) (fun _ => at_store sh (put1 f q))) ->
  (forall l1 q l2, l = l1 ++ q :: l2 -> forall p, In p (srcs q) ->
     f0 p <> None \/ exists q', In q' l1 /\ same_elt p (tgt q')) ->
  ht F (at_store sh f0) (run l body) (fun _ => at_store sh (fin f0 l)).
Proof.
  intros Hb Hs. apply (ht_run F (fun l1 => at_store sh (fin f0 l1)) l body). intros l1 q l2 E.
  rewrite fin_snoc. apply Hb.
  - rewrite E. apply in_or_app. right. now left.
  - intros p Hp. destruct (Hs l1 q l2 E p Hp) as [H|H]; [now apply fin_keep|now apply fin_some].
Qed.

End Loop.

(** ** The objects stay as they are *)

Definition keeps {A} (m : M (world V) A) : Prop := forall w w' x, m w = Ret w' x -> objs w' = objs w.

Lemma keeps_ret {A} (x : A) : keeps (ret x).
Proof. intros w w' y [= <- _]. reflexivity. Qed.
Lemma keeps_lift {A} (r : res A) : keeps (lift r).
Proof. intros w w' y E. unfold lift in E. destruct r; try discriminate E. now injection E as <- _. Qed.
Lemma keeps_undef {A} : keeps (undef : M (world V) A).
Proof. intros w w' y E. discriminate E. Qed.
Lemma keeps_bind {A B} (m : M (world V) A) (k : A -> M (world V) B) : keeps m -> (forall x, keeps (k x)) -> keeps (bind m k).
Proof.
  intros H1 H2 w w' y E. unfold bind in E. destruct (m w) as [w1 x| |] eqn:E1; try discriminate E.
  rewrite (H2 x _ _ _ E). exact (H1 _ _ _ E1).
Qed.
Lemma keeps_get chk p : keeps (get chk p).
Proof.
  apply keeps_bind; [|intros [| | |[v|]]; (apply keeps_ret || apply keeps_undef)].
  intros w w' r E. unfold call in E. destruct (step chk w _) as [[w1 x]|] eqn:Es; [|discriminate E].
  assert (objs w1 = objs w).
  { clear E. cbn in Es. destruct (find w (p_arr p)) as [[k o]|]; [|discriminate Es]. unfold on_mem in Es.
    destruct (gets _ (heap w)); try discriminate Es; injection Es as <- _; reflexivity. }
  destruct x; try discriminate E; injection E as <- _; assumption.
Qed.
Lemma keeps_get_all chk ps : keeps (get_all chk ps).
Proof.
  induction ps as [|p ps IH]; cbn [get_all]; [apply keeps_ret|]. apply keeps_bind; [apply keeps_get|]. intros v.
  apply keeps_bind; [exact IH|]. intros vs. apply keeps_ret.
Qed.
Lemma keeps_set chk p v : keeps (set chk p v).
Proof.
  apply keeps_bind; [|intros r; apply keeps_ret].
  intros w w' r E. unfold call in E. destruct (step chk w _) as [[w1 x]|] eqn:Es; [|discriminate E].
  assert (objs w1 = objs w).
  { clear E. cbn in Es. destruct (find w (p_arr p)) as [[k o]|]; [|discriminate Es]. unfold on_mem in Es.
    match type of Es with match ?c with _ => _ end = _ => destruct c end; try discriminate Es; injection Es as <- _; reflexivity. }
  destruct x; try discriminate E; injection E as <- _; assumption.
Qed.
Lemma keeps_assign chk p ps g : keeps (assign chk p ps g).
Proof. apply keeps_bind; [apply keeps_get_all|]. intros. apply keeps_set. Qed.
Lemma keeps_run {A} (l : list A) body : (forall q, keeps (body q)) -> keeps (run l body).
Proof. intros H. induction l as [|q l IH]; cbn [run]; [apply keeps_ret|]. apply keeps_bind; auto. Qed.

(** ** The loop *)

Lemma sorted_in {A} (R : A -> A -> Prop) l1 q l2 x :
  StronglySorted R (l1 ++ q :: l2) -> (In x l1 -> R x q) /\ (In x l2 -> R q x).
Proof.
  induction l1 as [|y l1 IH]; cbn; intros H; inversion H as [|? ? Hs Hf]; subst; rewrite Forall_forall in Hf.
  - split; [intros []|apply Hf].
  - destruct (IH Hs) as [H1 H2]. split; [|exact H2]. intros [->|Hx]; [|auto]. apply Hf, in_or_app. right. now left.
Qed.

Lemma loop_thm {A} (before : A -> A -> Prop) (dom : A -> Prop) (tgt : A -> elt) (srcs : A -> list elt) g l chk F h w aw :
  (forall q, In q l <-> dom q) -> StronglySorted before l -> (forall x, ~ before x x) -> (forall x y, before x y -> ~ before y x) ->
  after F h w aw -> intact aw -> loop_ready before dom tgt srcs w ->
  exists h' w' aw', run l (fun q => assign chk (tgt q) (srcs q) (g q)) w = Ret w' tt /\
    after F (h ++ h') w' aw' /\ intact aw' /\ objs w' = objs w /\ loop_done before dom tgt srcs g w w'.
Proof.
  intros Hd HS Hirr Hasym HA HI (Ht & Hinj & Hsrc).
  assert (C : forall p v, cell w p v <-> usable (shp aw) p /\ st aw p = v) by (intros; eapply cell_iff; eassumption).
  assert (Pos : forall l1 q l2, l = l1 ++ q :: l2 -> forall q', dom q' -> (before q' q <-> In q' l1)).
  { intros l1 q l2 E q' Hq'. rewrite E in HS. destruct (sorted_in _ _ _ _ q' HS) as [H1 H2]. split; [|exact H1].
    intros Hb. apply Hd in Hq'. rewrite E in Hq'. apply in_app_or in Hq'. destruct Hq' as [?|[<-|H]]; [assumption| |].
    - destruct (Hirr _ Hb).
    - destruct (Hasym _ _ Hb (H2 H)). }
  assert (AB : forall l1 q l2 p, l = l1 ++ q :: l2 -> (assigned_before before dom tgt p q <-> exists q', In q' l1 /\ same_elt p (tgt q'))).
  { intros l1 q l2 p E. split.
    - intros (q' & H1 & H2 & H3). exists q'. split; [|exact H3]. eapply Pos; eassumption.
    - intros (q' & H1 & H3). assert (dom q') by (apply Hd; rewrite E; apply in_or_app; now left).
      exists q'. split; [assumption|]. split; [|exact H3]. eapply Pos; eassumption. }
  assert (T : ht F (at_store (shp aw) (st aw)) (run l (fun q => assign chk (tgt q) (srcs q) (g q)))
                (fun _ => at_store (shp aw) (fin tgt srcs g (st aw) l))).
  { apply ht_loop.
    - intros q f Hq Hf. apply ht_assign.
      + destruct (Ht q) as (v & Hc); [now apply Hd|]. now apply C in Hc.
      + assert (U : forall p, In p (srcs q) -> usable (shp aw) p).
        { intros p Hp. destruct (Hsrc q p) as (v & Hc & _); [now apply Hd|exact Hp|]. now apply C in Hc. }
        pose proof (vals_spec f (srcs q) Hf) as X. clear - U X. revert U.
        induction X as [|p v ps vs E _ IH]; intros U; constructor.
        * split; [apply U; now left|exact E].
        * apply IH. intros p' Hp. apply U. now right.
    - intros l1 q l2 E p Hp. destruct (Hsrc q p) as (v & Hc & Hv); [apply Hd; rewrite E; apply in_or_app; right; now left|exact Hp|].
      apply C in Hc. destruct Hc as [_ Hc]. destruct Hv as [Hv|Hv]; [left; congruence|]. right. eapply AB; eassumption. }
  destruct (T h w aw HA) as (h' & w' & aw' & [] & E & [HA' _] & HI' & Hsh & Hst).
  { split; [exact HI|]. split; reflexivity. }
  exists h', w', aw'. split; [exact E|]. split; [exact HA'|]. split; [exact HI'|]. split.
  { eapply keeps_run; [|exact E]. intros q. apply keeps_assign. }
  assert (C' : forall p v, cell w' p v <-> usable (shp aw) p /\ fin tgt srcs g (st aw) l p = v).
  { intros p v. rewrite (cell_iff _ _ _ _ p v HA' HI'), Hst. unfold usable.
    split; intros [(k & gs & X & Y) Z]; (split; [exists k, gs; split; [|exact Y]|exact Z]); [rewrite <- Hsh|rewrite Hsh]; exact X. }
  assert (Uq : forall q p, dom q -> In p (srcs q) -> usable (shp aw) p).
  { intros q p Hq Hp. destruct (Hsrc q p Hq Hp) as (v & Hc & _). now apply C in Hc. }
  assert (Later : forall l1 q l2 p f, l = l1 ++ q :: l2 -> (exists q', In q' (l1 ++ [q]) /\ same_elt p (tgt q')) ->
                  fin tgt srcs g f l2 p = f p).
  { intros l1 q l2 p f El (q' & Hq' & Hs). apply fin_none. intros q2 Hq2 Hs2.
    assert (q' = q2).
    { apply Hinj.
      - apply Hd. rewrite El. apply in_app_or in Hq'. apply in_or_app. destruct Hq' as [?|[->|[]]]; [now left|right; now left].
      - apply Hd. rewrite El. apply in_or_app. right. now right.
      - destruct Hs as (? & ? & ?), Hs2 as (? & ? & ?). repeat split; congruence. }
    subst q2. rewrite El in HS. apply in_app_or in Hq'.
    destruct (sorted_in _ _ _ _ q' HS) as [H1 H2]. specialize (H2 Hq2). destruct Hq' as [Hq'|[<-|[]]].
    - destruct (Hasym _ _ (H1 Hq') H2).
    - destruct (Hirr _ H2). }
  assert (Fin : forall l1 q l2, l = l1 ++ q :: l2 -> forall f p, fin tgt srcs g f l p = fin tgt srcs g (put1 tgt srcs g (fin tgt srcs g f l1) q) l2 p).
  { intros l1 q l2 El f p. rewrite El. unfold fin. now rewrite fold_left_app. }
  split.
  - intros q Hq. pose proof (proj2 (Hd q) Hq) as Hin. apply in_split in Hin. destruct Hin as (l1 & l2 & El).
    set (f1 := fin tgt srcs g (st aw) l1).
    exists (vals f1 (srcs q)). split.
    + assert (Ok1 : forall p, In p (srcs q) -> f1 p <> None).
      { intros p Hp. destruct (Hsrc q p Hq Hp) as (v & Hc & Hv). apply C in Hc. destruct Hc as [_ Hc].
        destruct Hv as [Hv|Hv]; [apply fin_keep; congruence|]. apply fin_some. eapply AB; eassumption. }
      pose proof (vals_spec f1 (srcs q) Ok1) as X. pose proof (fun p => Uq q p Hq) as U. clear Ok1. revert U.
      induction X as [|p v ps vs Ev _ IH]; intros U; constructor; [|apply IH; intros p' Hp; apply U; now right].
      assert (D : (exists q', In q' l1 /\ same_elt p (tgt q')) \/ ~ (exists q', In q' l1 /\ same_elt p (tgt q'))).
      { destruct (existsb (fun q' => same_eltb p (tgt q')) l1) eqn:Ex.
        - left. apply existsb_exists in Ex. destruct Ex as (q' & ? & ?). exists q'. now rewrite <- same_eltb_iff.
        - right. intros (q' & H1 & H2). apply same_eltb_iff in H2.
          assert (existsb (fun q' => same_eltb p (tgt q')) l1 = true) by (apply existsb_exists; eauto). congruence. }
      destruct D as [D|D]; [left|right]; (split; [rewrite (AB l1 q l2 p El); exact D|]).
      * apply C'. split; [apply U; now left|]. rewrite (Fin l1 q l2 El).
        rewrite (Later l1 q l2 p _ El) by (destruct D as (q' & ? & ?); exists q'; split; [apply in_or_app; now left|assumption]).
        unfold put1. rewrite put_miss; [exact Ev|]. intros Hs. destruct D as (q' & H1 & H2).
        assert (q' = q).
        { apply Hinj; [apply Hd; rewrite El; apply in_or_app; now left|exact Hq|].
          destruct Hs as (? & ? & ?), H2 as (? & ? & ?). repeat split; congruence. }
        subst q'. rewrite El in HS. destruct (sorted_in _ _ _ _ q HS) as [H3 _]. destruct (Hirr _ (H3 H1)).
      * apply C. split; [apply U; now left|]. rewrite <- Ev. unfold f1. symmetry. apply fin_none.
        intros q' H1 H2. apply D. eauto.
    + apply C'. split; [destruct (Ht q Hq) as (v & Hc); now apply C in Hc|]. rewrite (Fin l1 q l2 El).
      assert (Sq : same_elt (tgt q) (tgt q)) by (repeat split).
      rewrite (Later l1 q l2 (tgt q) _ El) by (exists q; split; [apply in_or_app; right; now left|exact Sq]).
      unfold put1. now rewrite put_hit.
  - intros p v Hp. rewrite C, C'. rewrite fin_none; [reflexivity|]. intros q Hq. apply Hp. now apply Hd.
Qed.

Lemma lex_asym (x y : list Z) : lex_lt x y -> ~ lex_lt y x.
Proof.
  revert y. induction x as [|a x IH]; intros [|b y]; cbn; try tauto.
  intros [H|[E H]] [H'|[E' H']]; try lia. exact (IH _ H H').
Qed.

(** *** Over the points of a box *)
Lemma box_loop (B : box) (tgt : list Z -> elt) (srcs : list Z -> list elt) g chk F h w aw :
  after F h w aw -> intact aw -> loop_ready lex_lt (in_box B) tgt srcs w ->
  exists h' w' aw', run (points B) (fun q => assign chk (tgt q) (srcs q) (g q)) w = Ret w' tt /\
    after F (h ++ h') w' aw' /\ intact aw' /\ objs w' = objs w /\ loop_done lex_lt (in_box B) tgt srcs g w w'.
Proof.
  intros HA HI HR. apply (loop_thm lex_lt (in_box B) tgt srcs g (points B) chk F h w aw); try assumption.
  - intros q. apply in_points.
  - apply points_sorted.
  - apply lex_irrefl.
  - apply lex_asym.
Qed.

Lemma box_length B q : In q (points B) -> length q = length B.
Proof. intros H. apply in_points in H. symmetry. now apply in_box_length. Qed.

Ltac by_run :=
  apply run_ext; intros q s Hq; apply box_length in Hq; cbn [length faces1 faces2 faces3] in Hq;
  repeat (destruct q as [|? q]; try discriminate Hq); reflexivity.

Lemma client_D1 chk F h w aw r tgt srcs g :
  after F h w aw -> intact aw -> box_ordered (faces1 r) -> loop_ready lex_lt (in_box (faces1 r)) tgt srcs w ->
  exists h' w' aw', PD_For_1D chk r (fun i => assign chk (tgt [i]) (srcs [i]) (g [i])) w = Ret w' tt /\
    after F (h ++ h') w' aw' /\ intact aw' /\ objs w' = objs w /\ loop_done lex_lt (in_box (faces1 r)) tgt srcs g w w'.
Proof.
  intros HA HI HB HR. destruct (box_loop (faces1 r) tgt srcs g chk F h w aw HA HI HR) as (h' & w' & aw' & E & R).
  exists h', w', aw'. split; [|exact R]. rewrite <- E, loop_D1 by assumption. by_run.
Qed.

Lemma client_D2 chk F h w aw r tgt srcs g :
  after F h w aw -> intact aw -> box_ordered (faces2 r) -> loop_ready lex_lt (in_box (faces2 r)) tgt srcs w ->
  exists h' w' aw', PD_For_2D chk r (fun i j => assign chk (tgt [i; j]) (srcs [i; j]) (g [i; j])) w = Ret w' tt /\
    after F (h ++ h') w' aw' /\ intact aw' /\ objs w' = objs w /\ loop_done lex_lt (in_box (faces2 r)) tgt srcs g w w'.
Proof.
  intros HA HI HB HR. destruct (box_loop (faces2 r) tgt srcs g chk F h w aw HA HI HR) as (h' & w' & aw' & E & R).
  exists h', w', aw'. split; [|exact R]. rewrite <- E, loop_D2 by assumption. by_run.
Qed.

Lemma client_D3 chk F h w aw r tgt srcs g :
  after F h w aw -> intact aw -> box_ordered (faces3 r) -> loop_ready lex_lt (in_box (faces3 r)) tgt srcs w ->
  exists h' w' aw', PD_For_3D chk r (fun i j k => assign chk (tgt [i; j; k]) (srcs [i; j; k]) (g [i; j; k])) w = Ret w' tt /\
    after F (h ++ h') w' aw' /\ intact aw' /\ objs w' = objs w /\ loop_done lex_lt (in_box (faces3 r)) tgt srcs g w w'.
Proof.
  intros HA HI HB HR. destruct (box_loop (faces3 r) tgt srcs g chk F h w aw HA HI HR) as (h' & w' & aw' & E & R).
  exists h', w', aw'. split; [|exact R]. rewrite <- E, loop_D3 by assumption. by_run.
Qed.

Lemma client_N_D1 chk F h w aw b e r tgt srcs g :
  after F h w aw -> intact aw -> 0 <= b <= e -> e < UINT_MOD -> box_ordered (faces1 r) ->
  loop_ready lex_lt (in_box ((b, e) :: faces1 r)) tgt srcs w ->
  exists h' w' aw', PD_For_N_1D chk b e r (fun n i => assign chk (tgt [n; i]) (srcs [n; i]) (g [n; i])) w = Ret w' tt /\
    after F (h ++ h') w' aw' /\ intact aw' /\ objs w' = objs w /\ loop_done lex_lt (in_box ((b, e) :: faces1 r)) tgt srcs g w w'.
Proof.
  intros HA HI H1 H2 HB HR. destruct (box_loop ((b, e) :: faces1 r) tgt srcs g chk F h w aw HA HI HR) as (h' & w' & aw' & E & R).
  exists h', w', aw'. split; [|exact R]. rewrite <- E, loop_N_D1 by assumption. by_run.
Qed.

Lemma client_N_D2 chk F h w aw b e r tgt srcs g :
  after F h w aw -> intact aw -> 0 <= b <= e -> e < UINT_MOD -> box_ordered (faces2 r) ->
  loop_ready lex_lt (in_box ((b, e) :: faces2 r)) tgt srcs w ->
  exists h' w' aw', PD_For_N_2D chk b e r (fun n i j => assign chk (tgt [n; i; j]) (srcs [n; i; j]) (g [n; i; j])) w = Ret w' tt /\
    after F (h ++ h') w' aw' /\ intact aw' /\ objs w' = objs w /\ loop_done lex_lt (in_box ((b, e) :: faces2 r)) tgt srcs g w w'.
Proof.
  intros HA HI H1 H2 HB HR. destruct (box_loop ((b, e) :: faces2 r) tgt srcs g chk F h w aw HA HI HR) as (h' & w' & aw' & E & R).
  exists h', w', aw'. split; [|exact R]. rewrite <- E, loop_N_D2 by assumption. by_run.
Qed.

Lemma client_N_D3 chk F h w aw b e r tgt srcs g :
  after F h w aw -> intact aw -> 0 <= b <= e -> e < UINT_MOD -> box_ordered (faces3 r) ->
  loop_ready lex_lt (in_box ((b, e) :: faces3 r)) tgt srcs w ->
  exists h' w' aw', PD_For_N_3D chk b e r (fun n i j k => assign chk (tgt [n; i; j; k]) (srcs [n; i; j; k]) (g [n; i; j; k])) w = Ret w' tt /\
    after F (h ++ h') w' aw' /\ intact aw' /\ objs w' = objs w /\ loop_done lex_lt (in_box ((b, e) :: faces3 r)) tgt srcs g w w'.
Proof.
  intros HA HI H1 H2 HB HR. destruct (box_loop ((b, e) :: faces3 r) tgt srcs g chk F h w aw HA HI HR) as (h' & w' & aw' & E & R).
  exists h', w', aw'. split; [|exact R]. rewrite <- E, loop_N_D3 by assumption. by_run.
Qed.

(** ** Reductions *)

Lemma get_all_cells chk F h w aw ps vs :
  after F h w aw -> intact aw -> Forall2 (fun p v => cell w p (Some v)) ps vs -> get_all chk ps w = Ret w vs.
Proof.
  intros HA HI. induction 1 as [|p v ps vs Hc _ IH]; cbn [get_all]; [reflexivity|].
  apply (cell_iff _ _ _ _ _ _ HA HI) in Hc. destruct Hc as [Hu Hv].
  destruct (get_ok chk F h w aw p v HA Hu Hv) as (c & E & _). unfold bind. now rewrite E, IH.
Qed.

Lemma reduce_run_cells {A T} chk F h w aw (reduce : T -> T -> res T) (l : list A) (srcs : A -> list elt) (vs : A -> list V) (g : A -> list V -> T) acc last :
  after F h w aw -> intact aw -> (forall q, In q l -> Forall2 (fun p v => cell w p (Some v)) (srcs q) (vs q)) ->
  reduce_run reduce l (fun q => do* x := get_all chk (srcs q) in ret (g q x)) acc last w =
  reduce_run reduce l (fun q => ret (g q (vs q))) acc last w.
Proof.
  intros HA HI. revert acc. induction l as [|q l IH]; intros acc H; [reflexivity|]. cbn [reduce_run].
  unfold bind at 1 2. rewrite (get_all_cells _ _ _ _ _ _ _ HA HI (H q (or_introl eq_refl))). unfold ret at 1 2.
  unfold bind at 1, ret at 1.
  unfold bind, lift. destruct (reduce (g q (vs q)) acc); [|reflexivity|reflexivity].
  specialize (IH a ltac:(intros; apply H; now right)). exact IH.
Qed.

Lemma reduce_run_values {S A T} (reduce : T -> T -> res T) (l : list A) (f : A -> T) acc last (s : S) :
  reduce_run reduce l (fun q => ret (f q)) acc last s =
  lift (let* t := fold_res reduce (map f l) acc in reduce t last) s.
Proof.
  revert acc. induction l as [|x l IH]; intros acc; cbn [reduce_run map fold_res]; [reflexivity|].
  unfold bind, ret, lift. destruct (reduce (f x) acc) as [a| |]; cbn [rbind]; [|reflexivity..].
  specialize (IH a). unfold lift in IH. exact IH.
Qed.

Lemma reduce_run_same {S A T} (reduce : T -> T -> res T) (l : list A) (f g : A -> M S T) acc last (s : S) :
  (forall q, In q l -> f q = g q) -> reduce_run reduce l f acc last s = reduce_run reduce l g acc last s.
Proof.
  revert acc s. induction l as [|x l IH]; intros acc s H; cbn [reduce_run]; [reflexivity|].
  rewrite (H x (or_introl eq_refl)). unfold bind, lift. destruct (g x s) as [s' v| |]; [|reflexivity..].
  destruct (reduce v acc); [|reflexivity..]. apply IH. intros q Hq. apply H. now right.
Qed.

Lemma reduce_box {T} chk F h w aw (B : box) (reduce : T -> T -> res T) (fn : list Z -> M (world V) T) (srcs : list Z -> list elt) (vs : list Z -> list V) (g : list Z -> list V -> T) ans :
  after F h w aw -> intact aw -> (forall q, in_box B q -> Forall2 (fun p v => cell w p (Some v)) (srcs q) (vs q)) ->
  (forall q, In q (points B) -> fn q = (do* x := get_all chk (srcs q) in ret (g q x))) ->
  reduce_run reduce (points B) fn ans ans w =
  lift (let* t := fold_res reduce (map (fun q => g q (vs q)) (points B)) ans in reduce t ans) w.
Proof.
  intros HA HI Hs Hf. rewrite (reduce_run_same _ _ _ _ _ _ _ Hf).
  rewrite (reduce_run_cells chk F h w aw reduce (points B) srcs vs g ans ans HA HI).
  - apply reduce_run_values.
  - intros q Hq. apply Hs. now apply in_points.
Qed.

Ltac by_point :=
  intros q Hq; apply box_length in Hq; cbn [length faces1 faces2 faces3] in Hq;
  repeat (destruct q as [|? q]; try discriminate Hq); reflexivity.

Lemma client_reduce_D1 {T} chk F h w aw r (reduce : T -> T -> res T) ans srcs vs (g : list Z -> list V -> T) :
  after F h w aw -> intact aw -> box_ordered (faces1 r) ->
  (forall q, in_box (faces1 r) q -> Forall2 (fun p v => cell w p (Some v)) (srcs q) (vs q)) ->
  PD_Reduce_1D chk r ans reduce (fun i => do* x := get_all chk (srcs [i]) in ret (g [i] x)) w =
  lift (let* t := fold_res reduce (map (fun q => g q (vs q)) (points (faces1 r))) ans in reduce t ans) w.
Proof.
  intros HA HI HB Hs. rewrite reduce_D1 by assumption. apply (reduce_box chk F h w aw _ reduce _ srcs vs g ans HA HI Hs).
  by_point.
Qed.

Lemma client_reduce_D2 {T} chk F h w aw r (reduce : T -> T -> res T) ans srcs vs (g : list Z -> list V -> T) :
  after F h w aw -> intact aw -> box_ordered (faces2 r) ->
  (forall q, in_box (faces2 r) q -> Forall2 (fun p v => cell w p (Some v)) (srcs q) (vs q)) ->
  PD_Reduce_2D chk r ans reduce (fun i j => do* x := get_all chk (srcs [i; j]) in ret (g [i; j] x)) w =
  lift (let* t := fold_res reduce (map (fun q => g q (vs q)) (points (faces2 r))) ans in reduce t ans) w.
Proof.
  intros HA HI HB Hs. rewrite reduce_D2 by assumption. apply (reduce_box chk F h w aw _ reduce _ srcs vs g ans HA HI Hs).
  by_point.
Qed.

Lemma client_reduce_D3 {T} chk F h w aw r (reduce : T -> T -> res T) ans srcs vs (g : list Z -> list V -> T) :
  after F h w aw -> intact aw -> box_ordered (faces3 r) ->
  (forall q, in_box (faces3 r) q -> Forall2 (fun p v => cell w p (Some v)) (srcs q) (vs q)) ->
  PD_Reduce_3D chk r ans reduce (fun i j k => do* x := get_all chk (srcs [i; j; k]) in ret (g [i; j; k] x)) w =
  lift (let* t := fold_res reduce (map (fun q => g q (vs q)) (points (faces3 r))) ans in reduce t ans) w.
Proof.
  intros HA HI HB Hs. rewrite reduce_D3 by assumption. apply (reduce_box chk F h w aw _ reduce _ srcs vs g ans HA HI Hs).
  by_point.
Qed.

Lemma client_reduce_N_D1 {T} chk F h w aw b e r (reduce : T -> T -> res T) ans srcs vs (g : list Z -> list V -> T) :
  after F h w aw -> intact aw -> 0 <= b <= e -> e < UINT_MOD -> box_ordered (faces1 r) ->
  (forall q, in_box ((b, e) :: faces1 r) q -> Forall2 (fun p v => cell w p (Some v)) (srcs q) (vs q)) ->
  PD_Reduce_N_1D chk b e r ans reduce (fun n i => do* x := get_all chk (srcs [n; i]) in ret (g [n; i] x)) w =
  lift (let* t := fold_res reduce (map (fun q => g q (vs q)) (points ((b, e) :: faces1 r))) ans in reduce t ans) w.
Proof.
  intros HA HI H1 H2 HB Hs. rewrite reduce_N_D1 by assumption. apply (reduce_box chk F h w aw _ reduce _ srcs vs g ans HA HI Hs).
  by_point.
Qed.

Lemma client_reduce_N_D2 {T} chk F h w aw b e r (reduce : T -> T -> res T) ans srcs vs (g : list Z -> list V -> T) :
  after F h w aw -> intact aw -> 0 <= b <= e -> e < UINT_MOD -> box_ordered (faces2 r) ->
  (forall q, in_box ((b, e) :: faces2 r) q -> Forall2 (fun p v => cell w p (Some v)) (srcs q) (vs q)) ->
  PD_Reduce_N_2D chk b e r ans reduce (fun n i j => do* x := get_all chk (srcs [n; i; j]) in ret (g [n; i; j] x)) w =
  lift (let* t := fold_res reduce (map (fun q => g q (vs q)) (points ((b, e) :: faces2 r))) ans in reduce t ans) w.
Proof.
  intros HA HI H1 H2 HB Hs. rewrite reduce_N_D2 by assumption. apply (reduce_box chk F h w aw _ reduce _ srcs vs g ans HA HI Hs).
  by_point.
Qed.

Lemma client_reduce_N_D3 {T} chk F h w aw b e r (reduce : T -> T -> res T) ans srcs vs (g : list Z -> list V -> T) :
  after F h w aw -> intact aw -> 0 <= b <= e -> e < UINT_MOD -> box_ordered (faces3 r) ->
  (forall q, in_box ((b, e) :: faces3 r) q -> Forall2 (fun p v => cell w p (Some v)) (srcs q) (vs q)) ->
  PD_Reduce_N_3D chk b e r ans reduce (fun n i j k => do* x := get_all chk (srcs [n; i; j; k]) in ret (g [n; i; j; k] x)) w =
  lift (let* t := fold_res reduce (map (fun q => g q (vs q)) (points ((b, e) :: faces3 r))) ans in reduce t ans) w.
Proof.
  intros HA HI H1 H2 HB Hs. rewrite reduce_N_D3 by assumption. apply (reduce_box chk F h w aw _ reduce _ srcs vs g ans HA HI Hs).
  by_point.
Qed.

End Client.
