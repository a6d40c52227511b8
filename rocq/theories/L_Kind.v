(** The three classes under one representation relation. *)

From Coq Require Import ZArith List Bool Lia.
From Verif Require Import Base M_Flags M_Loop M_RS1 M_RS2 M_RS3 M_Heap M_PD1 M_PD2 M_PD3 M_World
  Spec Spec_Loop Spec_Array Spec_Hist
  L_Base L_RS L_Range L_Loop L_Heap L_Lin L_Rep L_PD1 L_PD2 L_PD3.
Import ListNotations.
Open Scope Z_scope.

Definition cell_of {V} (x : option V) : cell V := match x with Some v => CVal v | None => CUndef end.

(** Point decisions. *)
Lemma in_boxb_iff B q : in_boxb B q = true <-> in_box B q.
Proof.
  revert q. induction B as [|f B IH]; intros [|x q]; cbn [in_boxb].
  - split; [constructor|auto].
  - split; [discriminate|inversion 1].
  - split; [discriminate|inversion 1].
  - rewrite !andb_true_iff, IH. split.
    + intros [[H1 H2] H3]. zcmp. constructor; auto.
    + inversion 1; subst. cbv beta in *. repeat split; auto; [apply Z.leb_le|apply Z.ltb_lt]; lia.
Qed.

Lemma zs_eqb_eq p q : zs_eqb p q = true <-> p = q.
Proof. unfold zs_eqb. destruct (list_eq_dec Z.eq_dec p q); split; congruence. Qed.

Section Kind.
Context {V : Type}.
Implicit Types m : mem V.
Implicit Types f : content V.

Definition kok (k : kind) : Prop := 1 <= k_N k <= INT_MAX.

(** The cells of block [b] are the values of [f] in row-major order. *)
Definition holds m (b : nat) (B : box) (N : Z) f : Prop :=
  exists cs, block m b = Some cs /\ Z.of_nat (length cs) = N * vol B /\
    forall n q, 0 <= n < N -> in_box B q -> znth cs (lin B n q) = Some (cell_of (f n q)).

Lemma holds_blen m b B N f : holds m b B N f -> blen m b (N * vol B).
Proof. intros (cs & H & HL & _). exists cs. auto. Qed.

Lemma holds_eq m m' b B N f : block m' b = block m b -> holds m b B N f -> holds m' b B N f.
Proof. intros E (cs & H & R). exists cs. rewrite E. auto. Qed.

Lemma holds_ext m b B N f g :
  (forall n q, 0 <= n < N -> in_box B q -> f n q = g n q) -> holds m b B N f -> holds m b B N g.
Proof.
  intros E (cs & H & HL & HC). exists cs. split; [assumption|]. split; [assumption|].
  intros n q Hn Hq. rewrite <- E by assumption. now apply HC.
Qed.

Lemma holds_load m b B N f n q :
  holds m b B N f -> 0 <= n < N -> in_box B q -> load m (Ptr b (lin B n q)) = Ok (cell_of (f n q)).
Proof. intros (cs & H & HL & HC) Hn Hq. eapply load_ok; [eassumption|]. now apply HC. Qed.

Lemma holds_store m b B N f n q x :
  holds m b B N f -> 0 <= n < N -> in_box B q ->
  exists m', store (Ptr b (lin B n q)) (cell_of x) m = Ret m' tt /\ same_but [b] m m' /\
             holds m' b B N (put_at f n q x).
Proof.
  intros (cs & H & HL & HC) Hn Hq. pose proof (lin_bounds B q n N Hn Hq) as Hb.
  rewrite (store_ok _ _ _ _ _ H) by lia.
  eexists. split; [reflexivity|]. split; [apply same_but_set; now left|].
  exists (upd cs (Z.to_nat (lin B n q)) (cell_of x)).
  split; [eapply block_set_eq; eassumption|]. rewrite upd_length. split; [assumption|].
  intros n' q' Hn' Hq'. rewrite znth_upd by lia. unfold put_at.
  destruct (lin B n' q' =? lin B n q) eqn:E; zcmp.
  - apply lin_inj in E; [|assumption|assumption]. destruct E as [-> ->].
    rewrite Z.eqb_refl. replace (zs_eqb q q) with true by (symmetry; now apply zs_eqb_eq). reflexivity.
  - destruct ((n' =? n) && zs_eqb q' q) eqn:E'; [|now apply HC].
    apply andb_prop in E'. destruct E' as [E1 E2]. zcmp. apply zs_eqb_eq in E2. subst. contradiction.
Qed.

Definition emp (k : kind) (o : obj) : Prop :=
  match k, o with
  | K1 N _, O1 o => emp1 N o
  | K2 N _ _, O2 o => emp2 N o
  | K3 N _ _ _, O3 o => emp3 N o
  | _, _ => False
  end.

Definition liv (k : kind) m (o : obj) (gs : list dim_shape) (bs : list nat) : Prop :=
  match k, o, gs, bs with
  | K1 N l0, O1 o, [g0], [b] => liv1 N l0 m o g0 b
  | K2 N l0 l1, O2 o, [g0; g1], [b; t] => liv2 N l0 l1 m o g0 g1 b t
  | K3 N l0 l1 l2, O3 o, [g0; g1; g2], [b; t1; t2] => liv3 N l0 l1 l2 m o g0 g1 g2 b t1 t2
  | _, _, _, _ => False
  end.

Definition brk (k : kind) m (o : obj) (gs : list dim_shape) (bs : list nat) : Prop :=
  match k, o, gs, bs with
  | K2 N l0 l1, O2 o, [g0; g1], [b] => brk2 N m o g0 g1 b
  | K3 N l0 l1 l2, O3 o, [g0; g1; g2], [b] => brk3 N m o g0 g1 g2 b None
  | K3 N l0 l1 l2, O3 o, [g0; g1; g2], [b; t] => brk3 N m o g0 g1 g2 b (Some t)
  | _, _, _, _ => False
  end.

Definition sbox (k : kind) (gs : list dim_shape) : box := slot_box gs (k_locs k).

Definition rep (k : kind) m (o : obj) (a : arr V) (bs : list nat) : Prop :=
  match a with
  | AEmpty => emp k o /\ bs = []
  | ALive gs f =>
      shape_arg k gs /\ 0 < vol (sbox k gs) /\ liv k m o gs bs /\ holds m (hd O bs) (sbox k gs) (k_N k) f
  | ABroken gs nb =>
      shape_arg k gs /\ 0 < vol (sbox k gs) /\ brk k m o gs bs /\ length bs = nb
  end.

(** The relation looks only at the blocks of the array. *)
Lemma liv_frame k m m' o gs bs :
  (forall b, In b (tl bs) -> block m' b = block m b) ->
  (forall len, blen m (hd O bs) len -> blen m' (hd O bs) len) ->
  liv k m o gs bs -> liv k m' o gs bs.
Proof.
  intros Ht Hh.
  destruct k as [N l0|N l0 l1|N l0 l1 l2]; destruct o as [o|o|o]; try contradiction;
  destruct gs as [|g0 [|g1 [|g2 [|g3 gs]]]]; try contradiction;
  destruct bs as [|b [|t [|t2 [|t3 bs]]]]; try contradiction; cbn [liv hd tl In] in *.
  - unfold liv1. destruct g0 as [[n i] p]. intros (H1 & H2 & H3 & H4 & H5). auto 10.
  - unfold liv2. intros (H1 & H2 & H3 & H4 & H5 & H6 & H7 & H8). conjs; auto.
    destruct H7 as (cs & E & R). exists cs. rewrite Ht by auto. auto.
  - unfold liv3. intros (H1 & H2 & H3 & H4 & H5 & X1 & X2 & X3 & H6 & H7 & H8 & H9). conjs; auto.
    + destruct H7 as (cs & E & R). exists cs. rewrite Ht by auto. auto.
    + destruct H8 as (cs & E & R). exists cs. rewrite Ht by auto. auto.
Qed.

Lemma rep_frame k m m' o a bs :
  (forall b, In b bs -> block m' b = block m b) -> rep k m o a bs -> rep k m' o a bs.
Proof.
  intros E. destruct a as [|gs f|gs nb]; cbn [rep]; auto.
  - intros (H1 & H2 & H3 & H4).
    assert (Hh : block m' (hd O bs) = block m (hd O bs)).
    { apply E. destruct bs as [|b bs]; [|now left].
      destruct k as [? ?|? ? ?|? ? ? ?], o, gs as [|? [|? [|? [|? ?]]]]; contradiction. }
    repeat split; auto; try apply H1.
    + eapply liv_frame; [| |exact H3].
      * intros b Hb. apply E. destruct bs; [contradiction|now right].
      * intros len (cs & Hc & HL). exists cs. rewrite Hh. auto.
    + eapply holds_eq; [exact Hh|assumption].
  - intros (H1 & H2 & H3 & H4). split; [assumption|]. split; [assumption|]. split; [|assumption].
    destruct k as [N l0|N l0 l1|N l0 l1 l2]; destruct o as [o|o|o]; try contradiction;
    destruct gs as [|g0 [|g1 [|g2 [|g3 gs]]]]; try contradiction;
    destruct bs as [|b [|t [|t2 bs]]]; try contradiction; cbn [brk In] in *.
    + destruct H3 as (R1 & R2 & R3 & R4 & R5). unfold brk2. conjs; auto. now rewrite E by auto.
    + destruct H3 as (R1 & R2 & R3 & R4 & R5 & R6 & R7). unfold brk3. conjs; auto. now rewrite E by auto.
    + destruct H3 as (R1 & R2 & R3 & R4 & R5 & R6 & R7 & R8). unfold brk3. conjs; auto; now rewrite E by auto.
Qed.

(** All blocks of an array are alive and different. *)
Lemma rep_live k m o a bs b : rep k m o a bs -> In b bs -> block m b <> None.
Proof.
  destruct a as [|gs f|gs nb]; cbn [rep].
  - intros [_ ->] [].
  - intros (H1 & H2 & H3 & H4) Hb.
    destruct k as [N l0|N l0 l1|N l0 l1 l2]; destruct o as [o|o|o]; try contradiction;
    destruct gs as [|g0 [|g1 [|g2 [|g3 gs]]]]; try contradiction;
    destruct bs as [|b0 [|t [|t2 [|t3 bs]]]]; try contradiction; cbn [liv In hd] in *.
    + destruct H4 as (cs & E & _). destruct Hb as [<-|[]]. congruence.
    + destruct H3 as (_ & _ & _ & _ & _ & (cs & E & _) & (ct & E' & _) & _).
      destruct Hb as [<-|[<-|[]]]; congruence.
    + destruct H3 as (_ & _ & _ & _ & _ & _ & _ & _ & (cs & E & _) & (ct & E' & _) & (cu & E'' & _) & _).
      destruct Hb as [<-|[<-|[<-|[]]]]; congruence.
  - intros (H1 & H2 & H3 & H4) Hb.
    destruct k as [N l0|N l0 l1|N l0 l1 l2]; destruct o as [o|o|o]; try contradiction;
    destruct gs as [|g0 [|g1 [|g2 [|g3 gs]]]]; try contradiction;
    destruct bs as [|b0 [|t [|t2 bs]]]; try contradiction; cbn [brk In] in *.
    + destruct H3 as (_ & _ & _ & _ & R). destruct Hb as [<-|[]]. assumption.
    + destruct H3 as (_ & _ & _ & _ & _ & R & _). destruct Hb as [<-|[]]. assumption.
    + destruct H3 as (_ & _ & _ & _ & _ & R & _ & R'). destruct Hb as [<-|[<-|[]]]; assumption.
Qed.

Lemma rep_nodup k m o a bs : rep k m o a bs -> NoDup bs.
Proof.
  destruct a as [|gs f|gs nb]; cbn [rep].
  - intros [_ ->]. constructor.
  - intros (H1 & H2 & H3 & H4).
    destruct k as [N l0|N l0 l1|N l0 l1 l2]; destruct o as [o|o|o]; try contradiction;
    destruct gs as [|g0 [|g1 [|g2 [|g3 gs]]]]; try contradiction;
    destruct bs as [|b0 [|t [|t2 [|t3 bs]]]]; try contradiction; cbn [liv In hd] in *.
    + repeat constructor. intros [].
    + destruct H3 as (_ & _ & _ & _ & R & _). repeat constructor; cbn; intuition.
    + destruct H3 as (_ & _ & _ & _ & _ & R1 & R2 & R3 & _). repeat constructor; cbn; intuition.
  - intros (H1 & H2 & H3 & H4).
    destruct k as [N l0|N l0 l1|N l0 l1 l2]; destruct o as [o|o|o]; try contradiction;
    destruct gs as [|g0 [|g1 [|g2 [|g3 gs]]]]; try contradiction;
    destruct bs as [|b0 [|t [|t2 bs]]]; try contradiction; cbn [brk In] in *.
    + repeat constructor. intros [].
    + repeat constructor. intros [].
    + destruct H3 as (_ & _ & _ & _ & _ & _ & R & _). repeat constructor; cbn; intuition.
Qed.

(** ** Construction *)

Lemma ctor_ok k m :
  kok k -> exists o, m_ctor k (m, m_blank k) = Ret (m, o) tt /\ emp k o.
Proof.
  intros HN. destruct k as [N l0|N l0 l1|N l0 l1 l2]; cbn [m_ctor m_blank in1 in2 in3 emp] in *.
  - destruct (ctor1_ok N HN m) as (o & -> & H & _). exists (O1 o). auto.
  - destruct (ctor2_ok N HN m) as (o & -> & H & _). exists (O2 o). auto.
  - destruct (ctor3_ok N HN m) as (o & -> & H & _). exists (O3 o). auto.
Qed.

Lemma ctor_zero k m : k_N k = 0 -> m_ctor k (m, m_blank k) = Thr (m, m_blank k) ENZero.
Proof. intros E. destruct k; cbn [k_N] in E; subst; reflexivity. Qed.

Lemma ctor_sized_zero chk k gs m :
  length gs = length (k_locs k) ->
  k_N k = 0 -> m_ctor_sized chk k gs (m, m_blank k) = Thr (m, m_blank k) ENZero.
Proof.
  intros HL E.
  destruct k; cbn [k_N k_locs length] in *; subst;
  destruct gs as [|[[n i] p] [|[[n1 i1] p1] [|[[n2 i2] p2] [|g3 gs]]]]; try discriminate; reflexivity.
Qed.

Lemma in1_bind {A B} (x : M (mem V * pd1) A) (y : A -> M (mem V * pd1) B) m o :
  in1 (bind x y) (m, O1 o) = bind (in1 x) (fun a => in1 (y a)) (m, O1 o).
Proof. unfold in1, bind. destruct (x (m, o)) as [[? ?] ?|[? ?] ?|]; reflexivity. Qed.
Lemma in2_bind {A B} (x : M (mem V * pd2) A) (y : A -> M (mem V * pd2) B) m o :
  in2 (bind x y) (m, O2 o) = bind (in2 x) (fun a => in2 (y a)) (m, O2 o).
Proof. unfold in2, bind. destruct (x (m, o)) as [[? ?] ?|[? ?] ?|]; reflexivity. Qed.
Lemma in3_bind {A B} (x : M (mem V * pd3) A) (y : A -> M (mem V * pd3) B) m o :
  in3 (bind x y) (m, O3 o) = bind (in3 x) (fun a => in3 (y a)) (m, O3 o).
Proof. unfold in3, bind. destruct (x (m, o)) as [[? ?] ?|[? ?] ?|]; reflexivity. Qed.

(** The sized constructor is the default constructor followed by alloc. *)
Lemma ctor_sized_eq chk k gs m :
  length gs = length (k_locs k) ->
  m_ctor_sized chk k gs (m, m_blank k) = bind (m_ctor k) (fun _ => m_alloc chk k gs) (m, m_blank k).
Proof.
  intros HL.
  destruct k as [N l0|N l0 l1|N l0 l1 l2]; cbn [k_locs length] in HL;
  destruct gs as [|[[n i] p] [|[[n1 i1] p1] [|[[n2 i2] p2] [|g3 gs]]]]; try discriminate;
  cbn [m_ctor_sized m_ctor m_alloc m_blank].
  - unfold ctor1_sized, ctor1. destruct (N =? 0); [reflexivity|]. now rewrite in1_bind.
  - unfold ctor2_sized, ctor2. destruct (N =? 0); [reflexivity|]. now rewrite in2_bind.
  - unfold ctor3_sized, ctor3. destruct (N =? 0); [reflexivity|]. now rewrite in3_bind.
Qed.

(** ** Allocation *)

(** [m'] is [m] with new blocks [bs] at the end. *)
Definition grown m m' (bs : list nat) : Prop :=
  fails m' = fails m /\ bs = seq (length (blocks m)) (length bs) /\
  length (blocks m') = (length (blocks m) + length bs)%nat /\
  (forall b, (b < length (blocks m))%nat -> block m' b = block m b).

Lemma slots_extent g l : snd (slots g l) - fst (slots g l) = slot_count g l.
Proof. destruct g as [[n i] p]. unfold slots, slot_count. cbn [fst snd]. lia. Qed.

Lemma vol1 g0 l0 : vol [slots g0 l0] = slot_count g0 l0.
Proof. rewrite vol_cons, slots_extent. unfold vol; cbn [map zprod fold_right]. lia. Qed.
Lemma vol2 g0 g1 l0 l1 : vol [slots g0 l0; slots g1 l1] = slot_count g0 l0 * slot_count g1 l1.
Proof. rewrite vol_cons, slots_extent, vol1. reflexivity. Qed.
Lemma vol3 g0 g1 g2 l0 l1 l2 :
  vol [slots g0 l0; slots g1 l1; slots g2 l2] = slot_count g0 l0 * slot_count g1 l1 * slot_count g2 l2.
Proof. rewrite vol_cons, slots_extent, vol2. lia. Qed.

Lemma slot_count_nonneg g l : shape_ok g -> 0 <= slot_count g l.
Proof. destruct g as [[n i] p]. unfold shape_ok, slot_count. pose proof (loc_val_range l). lia. Qed.

Lemma slot_box_ordered gs ls : Forall shape_ok gs -> ordered (slot_box gs ls).
Proof.
  intros H. revert ls. induction H as [|g gs Hg H IH]; intros [|l ls]; try constructor.
  - cbv beta. pose proof (slot_count_nonneg g l Hg). pose proof (slots_extent g l). lia.
  - apply IH.
Qed.

Lemma grown_tick m : grown m (mem_tick m) [].
Proof. split; [reflexivity|]. split; [reflexivity|]. split; [cbn; lia|]. reflexivity. Qed.

Lemma grown_refl m : grown m m [].
Proof. split; [reflexivity|]. split; [reflexivity|]. split; [cbn; lia|]. reflexivity. Qed.

Lemma block_new_lt m len b : (b < length (blocks m))%nat -> block (mem_new m len) b = block m b.
Proof. intros H. unfold block, mem_new. cbn [blocks]. now rewrite nth_error_app1. Qed.

Lemma grown_new m len : grown m (mem_new m len) [length (blocks m)].
Proof.
  split; [reflexivity|]. split; [reflexivity|]. split; [unfold mem_new; cbn [blocks]; now rewrite app_length|].
  intros b Hb. now apply block_new_lt.
Qed.

Lemma grown_trans m m1 m2 bs bs' :
  grown m m1 bs -> grown m1 m2 bs' -> grown m m2 (bs ++ bs').
Proof.
  intros (A1 & A2 & A3 & A4) (B1 & B2 & B3 & B4). split; [congruence|].
  split; [rewrite app_length, seq_app, <- A2, <- A3, <- B2; reflexivity|].
  split; [rewrite app_length; lia|].
  intros b Hb. rewrite B4 by lia. now apply A4.
Qed.

Lemma grown_same m m1 m2 bs ts :
  grown m m1 bs -> same_but ts m1 m2 -> incl ts bs -> grown m m2 bs.
Proof.
  intros (A1 & A2 & A3 & A4) (B1 & B2 & B3 & B4) Hi. split; [congruence|]. split; [assumption|].
  split; [lia|]. intros b Hb. rewrite B4; [now apply A4|].
  intros Hb'. apply Hi in Hb'. rewrite A2 in Hb'. apply in_seq in Hb'. lia.
Qed.

Lemma holds_blank m b B N :
  0 <= N * vol B -> block m b = Some (repeat CUndef (Z.to_nat (N * vol B))) -> holds m b B N blank_content.
Proof.
  intros H E. exists (repeat CUndef (Z.to_nat (N * vol B))). split; [assumption|].
  rewrite repeat_length. split; [lia|].
  intros n q Hn Hq. pose proof (lin_bounds B q n N Hn Hq). rewrite znth_repeat by lia. reflexivity.
Qed.

Definition outcome (r : result V) (m : mem V) (o : obj) : out (mem V * obj) unit :=
  match r with RExn e => Thr (m, o) e | _ => Ret (m, o) tt end.

Lemma alloc_ok chk k m o gs :
  kok k -> shape_arg k gs -> emp k o ->
  let '(t, a, r) := a_alloc (fails m) (tick m) k gs in
  exists m' o' bs,
    m_alloc chk k gs (m, o) = outcome r m' o' /\ rep k m' o' a bs /\ grown m m' bs /\
    tick m' = (tick m + t)%nat /\ (a = AEmpty -> o' = o).
Proof.
  intros HN HS He. pose proof HS as HS'. destruct HS as (HL & HF & HV). unfold kok in HN.
  pose proof (vol_nonneg _ (slot_box_ordered gs (k_locs k) HF)) as Hnn.
  destruct k as [N l0|N l0 l1|N l0 l1 l2]; cbn [k_locs k_N length] in *;
  destruct gs as [|[[n i] p] [|[[n1 i1] p1] [|[[n2 i2] p2] [|g3 gs]]]]; try discriminate;
  destruct o as [o|o|o]; try contradiction; cbn [emp] in He; unfold slot_box in *; cbn [combine map] in *;
  unfold a_alloc; cbn [k_locs]; unfold slot_box; cbn [combine map bad_dim]; change (0 + 1) with 1; change (1 + 1) with 2.
  - destruct He as (E1 & E2 & E3). inversion_clear HF as [|? ? Hg _]. rewrite vol1 in *.
    pose proof (alloc1_ok N l0 HN chk m o n i p Hg HV E3 E2) as HA. cbv zeta in HA.
    set (P := slot_count (n, i, p) l0) in *.
    destruct ((i =? 0) && negb (n + p =? 0)).
    { exists m, (O1 o), []. cbn [m_alloc in1]. rewrite HA. split; [reflexivity|].
      split; [split; [repeat split; auto|reflexivity]|]. split; [apply grown_refl|]. split; [lia|auto]. }
    destruct (P =? 0) eqn:EP.
    { exists m, (O1 o), []. cbn [m_alloc in1]. rewrite HA. split; [reflexivity|].
      split; [split; [repeat split; auto|reflexivity]|]. split; [apply grown_refl|]. split; [lia|auto]. }
    cbn [first_fail length option_map]. destruct (fails m (tick m)).
    { exists (mem_tick m), (O1 o), []. cbn [m_alloc in1]. rewrite HA. split; [reflexivity|].
      split; [split; [repeat split; auto|reflexivity]|]. split; [apply grown_tick|]. split; [cbn; lia|auto]. }
    destruct HA as (o' & HA & HLv). zcmp.
    exists (mem_new m (N * P)), (O1 o'), [length (blocks m)]. cbn [m_alloc in1]. rewrite HA.
    split; [reflexivity|]. split; [|split; [apply grown_new|split; [cbn; lia|discriminate]]].
    cbn [rep]. unfold sbox, slot_box. cbn [combine map k_locs k_N hd]. rewrite vol1. fold P.
    split; [exact HS'|]. split; [lia|]. split; [exact HLv|]. apply holds_blank; rewrite vol1; fold P; [nia|].
    apply block_new_new.
  - destruct He as (E1 & E2 & E3 & E4). inversion_clear HF as [|? ? Hg HF']. inversion_clear HF' as [|? ? Hg1 _].
    rewrite vol2 in *.
    pose proof (alloc2_ok N l0 l1 HN chk m o (n, i, p) (n1, i1, p1) Hg Hg1 HV E4 E2 E3) as HA. cbv zeta in HA.
    set (P0 := slot_count (n, i, p) l0) in *. set (P1 := slot_count (n1, i1, p1) l1) in *.
    destruct ((i =? 0) && negb (n + p =? 0)).
    { exists m, (O2 o), []. cbn [m_alloc in2]. rewrite HA. split; [reflexivity|].
      split; [split; [repeat split; auto|reflexivity]|]. split; [apply grown_refl|]. split; [lia|auto]. }
    destruct ((i1 =? 0) && negb (n1 + p1 =? 0)).
    { exists m, (O2 o), []. cbn [m_alloc in2]. rewrite HA. split; [reflexivity|].
      split; [split; [repeat split; auto|reflexivity]|]. split; [apply grown_refl|]. split; [lia|auto]. }
    destruct (P0 * P1 =? 0) eqn:EP.
    { exists m, (O2 o), []. cbn [m_alloc in2]. rewrite HA. split; [reflexivity|].
      split; [split; [repeat split; auto|reflexivity]|]. split; [apply grown_refl|]. split; [lia|auto]. }
    cbn [first_fail length option_map]. zcmp.
    destruct (fails m (tick m)).
    { exists (mem_tick m), (O2 o), []. cbn [m_alloc in2]. rewrite HA. split; [reflexivity|].
      split; [split; [repeat split; auto|reflexivity]|]. split; [apply grown_tick|]. split; [cbn; lia|auto]. }
    destruct (fails m (S (tick m))); cbn [option_map].
    { destruct HA as (o' & HA & HB).
      exists (mem_tick (mem_new m (N * (P0 * P1)))), (O2 o'), [length (blocks m)].
      cbn [m_alloc in2]. rewrite HA. split; [reflexivity|].
      split; [|split; [|split; [cbn; lia|discriminate]]].
      - cbn [rep]. unfold sbox, slot_box. cbn [combine map k_locs k_N hd]. rewrite vol2. fold P0 P1.
        split; [exact HS'|]. split; [lia|]. split; [exact HB|reflexivity].
      - change [length (blocks m)] with ([length (blocks m)] ++ []).
        eapply grown_trans; [apply grown_new|apply grown_tick]. }
    destruct HA as (m' & o' & HA & HSB & HLv).
    exists m', (O2 o'), [length (blocks m); S (length (blocks m))].
    cbn [m_alloc in2]. rewrite HA. split; [reflexivity|].
    split; [|split; [|split; [|discriminate]]].
    + cbn [rep]. unfold sbox, slot_box. cbn [combine map k_locs k_N hd]. rewrite vol2. fold P0 P1.
      split; [exact HS'|]. split; [lia|]. split; [exact HLv|].
      apply holds_blank; rewrite vol2; fold P0 P1; [nia|].
      destruct HSB as (_ & _ & _ & HSB). rewrite HSB by (cbn; lia).
      rewrite block_new_lt by (rewrite blocks_new; lia). apply block_new_new.
    + eapply (grown_same _ _ _ ([length (blocks m)] ++ [S (length (blocks m))])); [|exact HSB|].
      * eapply grown_trans; [apply grown_new|].
        rewrite <- (blocks_new m (N * (P0 * P1))). apply grown_new.
      * intros x [<-|[]]. cbn. auto.
    + destruct HSB as (_ & _ & -> & _). cbn. lia.
  - destruct He as (E1 & E2 & E3 & E4 & E5). inversion_clear HF as [|? ? Hg HF']. inversion_clear HF' as [|? ? Hg1 HF].
    inversion_clear HF as [|? ? Hg2 _].
    rewrite vol3 in *.
    pose proof (alloc3_ok N l0 l1 l2 HN chk m o (n, i, p) (n1, i1, p1) (n2, i2, p2) Hg Hg1 Hg2 HV E5 E2 E3 E4) as HA.
    cbv zeta in HA.
    set (P0 := slot_count (n, i, p) l0) in *. set (P1 := slot_count (n1, i1, p1) l1) in *.
    set (P2 := slot_count (n2, i2, p2) l2) in *.
    destruct ((i =? 0) && negb (n + p =? 0)).
    { exists m, (O3 o), []. cbn [m_alloc in3]. rewrite HA. split; [reflexivity|].
      split; [split; [repeat split; auto|reflexivity]|]. split; [apply grown_refl|]. split; [lia|auto]. }
    destruct ((i1 =? 0) && negb (n1 + p1 =? 0)).
    { exists m, (O3 o), []. cbn [m_alloc in3]. rewrite HA. split; [reflexivity|].
      split; [split; [repeat split; auto|reflexivity]|]. split; [apply grown_refl|]. split; [lia|auto]. }
    destruct ((i2 =? 0) && negb (n2 + p2 =? 0)).
    { exists m, (O3 o), []. cbn [m_alloc in3]. rewrite HA. split; [reflexivity|].
      split; [split; [repeat split; auto|reflexivity]|]. split; [apply grown_refl|]. split; [lia|auto]. }
    destruct (P0 * P1 * P2 =? 0) eqn:EP.
    { exists m, (O3 o), []. cbn [m_alloc in3]. rewrite HA. split; [reflexivity|].
      split; [split; [repeat split; auto|reflexivity]|]. split; [apply grown_refl|]. split; [lia|auto]. }
    cbn [first_fail length option_map]. zcmp.
    destruct (fails m (tick m)).
    { exists (mem_tick m), (O3 o), []. cbn [m_alloc in3]. rewrite HA. split; [reflexivity|].
      split; [split; [repeat split; auto|reflexivity]|]. split; [apply grown_tick|]. split; [cbn; lia|auto]. }
    destruct (fails m (S (tick m))); cbn [option_map].
    { destruct HA as (o' & HA & HB).
      exists (mem_tick (mem_new m (N * (P0 * P1 * P2)))), (O3 o'), [length (blocks m)].
      cbn [m_alloc in3]. rewrite HA. split; [reflexivity|].
      split; [|split; [|split; [cbn; lia|discriminate]]].
      - cbn [rep]. unfold sbox, slot_box. cbn [combine map k_locs k_N hd]. rewrite vol3. fold P0 P1 P2.
        split; [exact HS'|]. split; [lia|]. split; [exact HB|reflexivity].
      - change [length (blocks m)] with ([length (blocks m)] ++ []).
        eapply grown_trans; [apply grown_new|apply grown_tick]. }
    set (m1 := mem_new m (N * (P0 * P1 * P2))) in *.
    assert (G1 : grown m m1 [length (blocks m)]) by apply grown_new.
    assert (L1 : length (blocks m1) = S (length (blocks m))) by apply blocks_new.
    set (m2 := mem_new m1 (N * P0)) in *.
    assert (G2 : grown m m2 [length (blocks m); S (length (blocks m))]).
    { change [length (blocks m); S (length (blocks m))] with ([length (blocks m)] ++ [S (length (blocks m))]).
      eapply grown_trans; [exact G1|]. rewrite <- L1. apply grown_new. }
    assert (L2 : length (blocks m2) = S (S (length (blocks m)))) by (unfold m2; rewrite blocks_new; lia).
    destruct (fails m (S (S (tick m)))); cbn [option_map].
    { destruct HA as (o' & HA & HB).
      exists (mem_tick m2), (O3 o'), [length (blocks m); S (length (blocks m))].
      cbn [m_alloc in3]. rewrite HA. split; [reflexivity|].
      split; [|split; [|split; [cbn; lia|discriminate]]].
      - cbn [rep]. unfold sbox, slot_box. cbn [combine map k_locs k_N hd]. rewrite vol3. fold P0 P1 P2.
        split; [exact HS'|]. split; [lia|]. split; [exact HB|reflexivity].
      - change [length (blocks m); S (length (blocks m))] with ([length (blocks m); S (length (blocks m))] ++ []).
        eapply grown_trans; [exact G2|apply grown_tick]. }
    destruct HA as (m' & o' & HA & HSB & HLv).
    exists m', (O3 o'), [length (blocks m); S (length (blocks m)); S (S (length (blocks m)))].
    cbn [m_alloc in3]. rewrite HA. split; [reflexivity|].
    split; [|split; [|split; [|discriminate]]].
    + cbn [rep]. unfold sbox, slot_box. cbn [combine map k_locs k_N hd]. rewrite vol3. fold P0 P1 P2.
      split; [exact HS'|]. split; [lia|]. split; [exact HLv|].
      apply holds_blank; rewrite vol3; fold P0 P1 P2; [nia|].
      destruct HSB as (_ & _ & _ & HSB). rewrite HSB by (cbn; lia).
      rewrite block_new_lt by lia. unfold m2. rewrite block_new_lt by lia. apply block_new_new.
    + eapply (grown_same _ _ _ ([length (blocks m); S (length (blocks m))] ++ [S (S (length (blocks m)))])); [|exact HSB|].
      * eapply grown_trans; [exact G2|]. rewrite <- L2. apply grown_new.
      * intros x [<-|[<-|[]]]; cbn; auto.
    + destruct HSB as (_ & _ & -> & _). cbn. lia.
Qed.

(** ** clear *)

Definition kill m (bs : list nat) : mem V := fold_left (fun m b => set_block m b None) bs m.

Lemma kill_blocks m bs : length (blocks (kill m bs)) = length (blocks m).
Proof. revert m. induction bs as [|b bs IH]; intros m; [reflexivity|]. change (kill m (b :: bs)) with (kill (set_block m b None) bs). now rewrite IH, blocks_set. Qed.
Lemma kill_fails m bs : fails (kill m bs) = fails m.
Proof. revert m. induction bs as [|b bs IH]; intros m; [reflexivity|]. change (kill m (b :: bs)) with (kill (set_block m b None) bs). now rewrite IH. Qed.
Lemma kill_tick m bs : tick (kill m bs) = tick m.
Proof. revert m. induction bs as [|b bs IH]; intros m; [reflexivity|]. change (kill m (b :: bs)) with (kill (set_block m b None) bs). now rewrite IH. Qed.

Lemma kill_block m bs b : block (kill m bs) b = if in_dec Nat.eq_dec b bs then None else block m b.
Proof.
  revert m. induction bs as [|c bs IH]; intros m; [reflexivity|]. change (kill m (c :: bs)) with (kill (set_block m c None) bs).
  rewrite IH. destruct (in_dec Nat.eq_dec b bs) as [Hb|Hb]; destruct (in_dec Nat.eq_dec b (c :: bs)) as [Hb'|Hb'].
  - reflexivity.
  - exfalso. apply Hb'. now right.
  - destruct Hb' as [->|Hb']; [|contradiction].
    unfold block, set_block. cbn [blocks]. destruct (Nat.lt_ge_cases b (length (blocks m))) as [H|H].
    + now rewrite nth_error_upd_eq.
    + rewrite (proj2 (nth_error_None _ _)); [reflexivity|]. now rewrite upd_length.
  - apply block_set_ne. intros ->. apply Hb'. now left.
Qed.

Lemma clear_ok k m o a bs :
  kok k -> rep k m o a bs -> a <> AEmpty ->
  exists o', m_clear k (m, o) = Ret (kill m bs, o') tt /\ emp k o'.
Proof.
  intros HN HR Ha. unfold kok in HN. destruct a as [|gs f|gs nb]; [congruence| |]; cbn [rep] in HR;
  destruct HR as (_ & _ & HR & _);
  (destruct k as [N l0|N l0 l1|N l0 l1 l2]; destruct o as [o|o|o]; try contradiction;
   destruct gs as [|g0 [|g1 [|g2 [|g3 gs]]]]; try contradiction;
   destruct bs as [|b [|t [|t2 [|t3 bs]]]]; try contradiction); cbn [liv brk k_N m_clear emp] in *.
  - destruct (clear1_ok N l0 HN _ _ _ _ HR) as (o' & E & H & _). exists (O1 o'). unfold in1. rewrite E. auto.
  - destruct (clear2_ok N l0 l1 _ _ _ _ _ _ HR) as (o' & E & H). exists (O2 o'). unfold in2. rewrite E. auto.
  - destruct (clear3_ok N l0 l1 l2 _ _ _ _ _ _ _ _ HR) as (o' & E & H). exists (O3 o'). unfold in3. rewrite E. auto.
  - destruct (clear2_brk N _ _ _ _ _ HR) as (o' & E & H). exists (O2 o'). unfold in2. rewrite E. auto.
  - destruct (clear3_brk N _ _ _ _ _ _ _ HR) as (o' & E & H). exists (O3 o'). unfold in3. rewrite E. auto.
  - destruct (clear3_brk N _ _ _ _ _ _ _ HR) as (o' & E & H). exists (O3 o'). unfold in3. rewrite E. auto.
Qed.

Lemma clear_empty k m o : emp k o -> m_clear k (m, o) = Thr (m, o) EClearEmpty.
Proof.
  intros H. destruct k as [N l0|N l0 l1|N l0 l1 l2]; destruct o as [o|o|o]; try contradiction;
  cbn [emp m_clear] in *; destruct H as (_ & H & _).
  - unfold in1, clear1. rewrite b_get, H. reflexivity.
  - unfold in2, clear2. rewrite b_get, H. reflexivity.
  - unfold in3, clear3. rewrite b_get, H. reflexivity.
Qed.


Lemma rep_data k m o a bs :
  rep k m o a bs -> match a with AEmpty => o_data o = Null | _ => exists b, o_data o = Ptr b 0 end.
Proof.
  intros HR. destruct a as [|gs f|gs nb]; cbn [rep] in HR.
  - destruct HR as [H _].
    destruct k as [N l0|N l0 l1|N l0 l1 l2]; destruct o as [o|o|o]; try contradiction; cbn in *; apply H.
  - destruct HR as (_ & _ & HR & _).
    (destruct k as [N l0|N l0 l1|N l0 l1 l2]; destruct o as [o|o|o]; try contradiction;
     destruct gs as [|g0 [|g1 [|g2 [|g3 gs]]]]; try contradiction;
     destruct bs as [|b [|t [|t2 [|t3 bs]]]]; try contradiction); cbn [liv o_data] in *.
    + destruct g0 as [[n i] p]. destruct HR as (_ & HR & _). eauto.
    + destruct HR as (_ & HR & _). eauto.
    + destruct HR as (_ & HR & _). eauto.
  - destruct HR as (_ & _ & HR & _).
    (destruct k as [N l0|N l0 l1|N l0 l1 l2]; destruct o as [o|o|o]; try contradiction;
     destruct gs as [|g0 [|g1 [|g2 [|g3 gs]]]]; try contradiction;
     destruct bs as [|b [|t [|t2 bs]]]; try contradiction); cbn [brk o_data] in *;
    destruct HR as (_ & HR & _); eauto.
Qed.

Lemma rep_size k m o a bs : rep k m o a bs -> m_size o = a_shape k a.
Proof.
  intros HR. destruct a as [|gs f|gs nb]; cbn [rep] in HR.
  - destruct HR as [H _].
    destruct k as [N l0|N l0 l1|N l0 l1 l2]; destruct o as [o|o|o]; try contradiction; cbn [emp m_size] in *;
    destruct H as [-> _]; reflexivity.
  - destruct HR as (_ & _ & HR & _).
    (destruct k as [N l0|N l0 l1|N l0 l1 l2]; destruct o as [o|o|o]; try contradiction;
     destruct gs as [|[[n i] p] [|[[n1 i1] p1] [|[[n2 i2] p2] [|g3 gs]]]]; try contradiction;
     destruct bs as [|b [|t [|t2 [|t3 bs]]]]; try contradiction); cbn [liv m_size a_shape] in *;
    destruct HR as (-> & _); reflexivity.
  - destruct HR as (_ & _ & HR & _).
    (destruct k as [N l0|N l0 l1|N l0 l1 l2]; destruct o as [o|o|o]; try contradiction;
     destruct gs as [|[[n i] p] [|[[n1 i1] p1] [|[[n2 i2] p2] [|g3 gs]]]]; try contradiction;
     destruct bs as [|b [|t [|t2 bs]]]; try contradiction); cbn [brk m_size a_shape] in *;
    destruct HR as (-> & _); reflexivity.
Qed.

Lemma alloc_full chk k m o a bs gs :
  length gs = length (k_locs k) -> rep k m o a bs -> a <> AEmpty ->
  m_alloc chk k gs (m, o) = Thr (m, o) EAllocNotEmpty.
Proof.
  intros HL HR Ha. pose proof (rep_data _ _ _ _ _ HR) as Hd.
  assert (Hd' : exists b, o_data o = Ptr b 0) by (destruct a; [congruence|exact Hd|exact Hd]).
  assert (Ho : match k, o with K1 _ _, O1 _ | K2 _ _ _, O2 _ | K3 _ _ _ _, O3 _ => True | _, _ => False end).
  { destruct a as [|gs' f|gs' nb]; [congruence| |]; cbn [rep] in HR; destruct HR as (_ & _ & HR & _);
    destruct k, o; try exact I; exact HR. }
  clear HR Hd. destruct Hd' as (b & Hd).
  destruct k as [N l0|N l0 l1|N l0 l1 l2]; destruct o as [o|o|o]; try contradiction; cbn [k_locs length] in HL;
  destruct gs as [|[[n i] p] [|[[n1 i1] p1] [|[[n2 i2] p2] [|g3 gs]]]]; try discriminate; cbn [m_alloc o_data] in *.
  - unfold in1, alloc1. rewrite b_get, Hd. reflexivity.
  - unfold in2, alloc2. rewrite b_get, Hd. reflexivity.
  - unfold in3, alloc3. rewrite b_get, Hd. reflexivity.
Qed.

(** realloc is: check the shape, clear, alloc. *)
Lemma realloc_eq chk k gs (st : mem V * obj) :
  shape_arg k gs -> match k, snd st with K1 _ _, O1 _ | K2 _ _ _, O2 _ | K3 _ _ _ _, O3 _ => True | _, _ => False end ->
  m_realloc chk k gs st =
  match bad_dim 0 gs with
  | Some d => Thr st (EInZero d)
  | None => bind (m_clear k) (fun _ => m_alloc chk k gs) st
  end.
Proof.
  intros (HL & HF & _) Ho. destruct st as [m o]. cbn [snd] in Ho.
  destruct k as [N l0|N l0 l1|N l0 l1 l2]; destruct o as [o|o|o]; try contradiction; cbn [k_locs length] in HL;
  destruct gs as [|[[n i] p] [|[[n1 i1] p1] [|[[n2 i2] p2] [|g3 gs]]]]; try discriminate;
  cbn [m_realloc m_clear m_alloc bad_dim]; change (0 + 1) with 1; change (1 + 1) with 2.
  - inversion_clear HF as [|? ? Hg _].
    unfold realloc1. rewrite in1_bind. rewrite mk_sizeT1_fits by now apply shape_ok_fits.
    rewrite scheck1_eq by assumption. destruct ((i =? 0) && _); [reflexivity|].
    etransitivity; [|apply in1_bind]. reflexivity.
  - inversion_clear HF as [|? ? Hg HF']. inversion_clear HF' as [|? ? Hg1 _].
    unfold realloc2. rewrite in2_bind. rewrite mk_sizeT2_fits by now apply shape_ok_fits.
    unfold scheck2. cbn [s2_in s2_n s2_p fst snd]. rewrite !scheck_dim_eq by assumption.
    destruct ((i =? 0) && _); [reflexivity|]. cbn [rbind]. destruct ((i1 =? 0) && _); [reflexivity|].
    etransitivity; [|apply in2_bind]. reflexivity.
  - inversion_clear HF as [|? ? Hg HF']. inversion_clear HF' as [|? ? Hg1 HF]. inversion_clear HF as [|? ? Hg2 _].
    unfold realloc3. rewrite in3_bind. rewrite mk_sizeT3_fits by now apply shape_ok_fits.
    unfold scheck3. cbn [s3_in s3_n s3_p c0 c1 c2]. rewrite !scheck_dim_eq by assumption.
    destruct ((i =? 0) && _); [reflexivity|]. cbn [rbind]. destruct ((i1 =? 0) && _); [reflexivity|].
    cbn [rbind]. destruct ((i2 =? 0) && _); [reflexivity|].
    etransitivity; [|apply in3_bind]. reflexivity.
Qed.

Lemma rep_class k m o a bs :
  rep k m o a bs -> match k, o with K1 _ _, O1 _ | K2 _ _ _, O2 _ | K3 _ _ _ _, O3 _ => True | _, _ => False end.
Proof.
  destruct a as [|gs f|gs nb]; cbn [rep]; intros HR.
  - destruct HR as [HR _]. destruct k, o; try exact I; exact HR.
  - destruct HR as (_ & _ & HR & _). destruct k, o; try exact I; exact HR.
  - destruct HR as (_ & _ & HR & _). destruct k, o; try exact I; exact HR.
Qed.

(** Destructors. *)
Lemma dtor_ok k m o a bs :
  kok k -> rep k m o a bs -> exists o', m_dtor k (m, o) = Ret (kill m bs, o') tt.
Proof.
  intros HN HR. pose proof (rep_data _ _ _ _ _ HR) as Hd. pose proof (rep_class _ _ _ _ _ HR) as Hc.
  destruct a as [|gs f|gs nb].
  - destruct HR as [_ ->]. exists o.
    destruct k as [N l0|N l0 l1|N l0 l1 l2]; destruct o as [o|o|o]; try contradiction; cbn [m_dtor o_data] in *.
    + unfold in1, dtor1. rewrite b_get, Hd. reflexivity.
    + unfold in2, dtor2. rewrite b_get, Hd. reflexivity.
    + unfold in3, dtor3. rewrite b_get, Hd. reflexivity.
  - destruct (clear_ok _ _ _ _ _ HN HR) as (o' & E & _); [discriminate|]. exists o'. rewrite <- E. destruct Hd as [b Hd].
    destruct k as [N l0|N l0 l1|N l0 l1 l2]; destruct o as [o|o|o]; try contradiction; cbn [m_dtor m_clear o_data] in *.
    + unfold in1, dtor1. rewrite b_get, Hd. reflexivity.
    + unfold in2, dtor2. rewrite b_get, Hd. reflexivity.
    + unfold in3, dtor3. rewrite b_get, Hd. reflexivity.
  - destruct (clear_ok _ _ _ _ _ HN HR) as (o' & E & _); [discriminate|]. exists o'. rewrite <- E. destruct Hd as [b Hd].
    destruct k as [N l0|N l0 l1|N l0 l1 l2]; destruct o as [o|o|o]; try contradiction; cbn [m_dtor m_clear o_data] in *.
    + unfold in1, dtor1. rewrite b_get, Hd. reflexivity.
    + unfold in2, dtor2. rewrite b_get, Hd. reflexivity.
    + unfold in3, dtor3. rewrite b_get, Hd. reflexivity.
Qed.

(** ** Element access *)

Lemma lval_ok k m o gs bs n q :
  kok k -> liv k m o gs bs -> 0 <= n < k_N k -> in_box (sbox k gs) q ->
  m_lval m o n q = Ok (Ptr (hd O bs) (lin (sbox k gs) n q)).
Proof.
  intros HN HL Hn Hq. unfold kok, sbox in *.
  destruct k as [N l0|N l0 l1|N l0 l1 l2]; destruct o as [o|o|o]; try contradiction;
  destruct gs as [|g0 [|g1 [|g2 [|g3 gs]]]]; try contradiction;
  destruct bs as [|b [|t [|t2 [|t3 bs]]]]; try contradiction; cbn [liv k_N k_locs hd] in *;
  unfold slot_box in *; cbn [combine map] in *.
  - inversion Hq as [|? x ? ? Hx Hr]; subst. inversion Hr; subst. cbn [m_lval].
    eapply lval1_ok; eassumption.
  - inversion Hq as [|? x ? ? Hx Hr]; subst. inversion Hr as [|? y ? ? Hy Hr']; subst. inversion Hr'; subst.
    cbn [m_lval]. eapply lval2_ok; eassumption.
  - inversion Hq as [|? x ? ? Hx Hr]; subst. inversion Hr as [|? y ? ? Hy Hr']; subst.
    inversion Hr' as [|? z ? ? Hz Hr'']; subst. inversion Hr''; subst.
    cbn [m_lval]. eapply lval3_ok; eassumption.
Qed.

(** Per dimension: flag check and range check. *)
Lemma flag_dim_eq d l (f : flag) :
  check_flag_dim true d l f = match flag_error d [l] [f] with Some e => Err e | None => Ok tt end.
Proof. destruct l, f; reflexivity. Qed.

Definition dim_check (d : Z) (l : loc) (g : dim_shape) (x : Z) (f : flag) : res unit :=
  match index_error d [l] [g] [x] [f] with Some e => Err e | None => Ok tt end.

Lemma shape_margin g : shape_ok g ->
  in_int (fst (region g RALL)) /\ in_int (snd (region g RALL)) /\ margin (region g RALL).
Proof.
  destruct g as [[n i] p]. unfold shape_ok, margin, in_int. cbn [region fst snd]. intros. lia.
Qed.

Lemma slots_region g l : slots g l = (fst (region g RALL), snd (region g RALL) + loc_val l).
Proof. destruct g as [[n i] p]. reflexivity. Qed.

Lemma region_pair g t : region g t = (fst (region g t), fst (region g t) + (snd (region g t) - fst (region g t))).
Proof. destruct (region g t) as [x y]. cbn [fst snd]. f_equal. lia. Qed.

Lemma at_checks k m o gs n q fl :
  kok k -> m_size o = gs -> Forall shape_ok gs -> (exists b, o_data o = Ptr b 0) ->
  match k, o with K1 _ _, O1 _ | K2 _ _ _, O2 _ | K3 _ _ _ _, O3 _ => True | _, _ => False end ->
  length q = length (k_locs k) -> length fl = length (k_locs k) -> Forall in_int q ->
  m_at true k m o n q fl =
  match access_error (k_N k) (k_locs k) gs n q fl with
  | Some e => Err e
  | None => m_lval m o n (slot_of q fl)
  end.
Proof.
  intros HN HS HF [b Hd] Hc Hq Hfl Hqi. unfold kok in HN.
  assert (Hn : forall N, 1 <= N <= INT_MAX -> check_n true N n = if N <=? n then Err (EN n (N - 1)) else Ok tt).
  { intros N HN'. unfold check_n. rewrite Z.geb_leb. destruct (N <=? n); [|reflexivity].
    rewrite u2i_small by lia. arith. reflexivity. }
  destruct k as [N l0|N l0 l1|N l0 l1 l2]; destruct o as [o|o|o]; try contradiction; cbn [k_locs k_N length o_data m_size] in *.
  - destruct q as [|x [|? ?]]; try discriminate. destruct fl as [|f [|? ?]]; try discriminate.
    destruct (pd1_size o) as [i nn p] eqn:Es. unfold shape1 in HS. cbn [s1_n s1_in s1_p] in HS. subst gs.
    inversion_clear HF as [|? ? Hg _]. destruct (shape_margin _ Hg) as (M1 & M2 & M3).
    inversion_clear Hqi as [|? ? Hx _].
    cbn [m_at m_lval]. unfold at1. rewrite Hd. cbn [check_data is_null rbind].
    rewrite Hn by assumption. unfold access_error. destruct (N <=? n); [reflexivity|]. cbn [rbind].
    rewrite flag_dim_eq. cbn [flag_error].
    match goal with |- context [match ?X with Some e => Err e | None => Ok tt end] =>
      destruct X as [e|] eqn:Ef end; [reflexivity|]. cbn [rbind].
    rewrite Es, srange1_eq by now apply shape_ok_fits. cbn [rbind].
    pose proof (check_range1_eq (mkRange1 (fst (region (nn, i, p) RALL)) (snd (region (nn, i, p) RALL) - fst (region (nn, i, p) RALL))) l0 x (fl_offset f)) as HR.
    cbn [r1_begin r1_size] in HR. cbv zeta in HR. rewrite <- region_pair in HR.
    rewrite HR by (auto using fl_offset_range). cbn [index_error]. rewrite slots_region. cbn [fst snd].
    destruct (_ && _) eqn:Er; [|reflexivity]. cbn [rbind].
    apply andb_prop in Er. destruct Er as [Er1 Er2]. zcmp.
    pose proof (loc_val_range l0). destruct M3 as (M3 & M4 & M5). unfold in_int in *.
    arith. reflexivity.
  - destruct q as [|x [|y [|? ?]]]; try discriminate. destruct fl as [|f [|f1 [|? ?]]]; try discriminate.
    set (g0 := nth 0 gs (0, 0, 0)). set (g1 := nth 1 gs (0, 0, 0)).
    assert (Eg : gs = [g0; g1]) by (subst gs; reflexivity).
    assert (Hfit : Forall dim_fits (shape2 (pd2_size o))).
    { rewrite HS. eapply Forall_impl; [|exact HF]. apply shape_ok_fits. }
    pose proof (srange2_eq true (pd2_size o) RALL RALL Hfit) as HR. cbv zeta in HR.
    change (dimof2 (pd2_size o) 0) with (nth 0 (shape2 (pd2_size o)) (0, 0, 0)) in HR.
    change (dimof2 (pd2_size o) 1) with (nth 1 (shape2 (pd2_size o)) (0, 0, 0)) in HR.
    rewrite HS in HR. fold g0 g1 in HR.
    rewrite Eg in HF. inversion_clear HF as [|? ? Hg0 HF']. inversion_clear HF' as [|? ? Hg1 _].
    destruct (shape_margin _ Hg0) as (M1 & M2 & M3). destruct (shape_margin _ Hg1) as (M1' & M2' & M3').
    inversion_clear Hqi as [|? ? Hx Hqi']. inversion_clear Hqi' as [|? ? Hy _].
    rewrite Eg.
    cbn [m_at m_lval]. unfold at2. rewrite Hd. cbn [check_data is_null rbind].
    rewrite Hn by assumption. unfold access_error. destruct (N <=? n); [reflexivity|]. cbn [rbind].
    rewrite !flag_dim_eq. cbn [flag_error]. change (0 + 1) with 1.
    destruct l0, f; cbn [rbind]; try reflexivity;
    destruct l1, f1; cbn [rbind]; try reflexivity;
    rewrite HR; cbn [rbind];
    (match goal with |- context [check_range2 true ?r 0 ?l x ?off] =>
      pose proof (check_range2_eq r 0 l x off ltac:(lia)) as HC0; pose proof (check_range2_eq r 1) as HC1 end);
    unfold faces2 in HC0, HC1; cbn [r2_begin r2_size fst snd] in HC0, HC1; cbv zeta in HC0, HC1;
    change (Z.to_nat 0) with O in HC0; change (Z.to_nat 1) with 1%nat in HC1; cbn [nth] in HC0, HC1;
    rewrite <- region_pair in HC0, HC1;
    (rewrite HC0 by (auto using fl_offset_range; cbn; lia)); clear HC0;
    cbn [index_error]; rewrite slots_region; cbn [fst snd fl_offset loc_val];
    (destruct ((fst (region g0 RALL) <=? _) && _) eqn:Er; [|reflexivity]); cbn [rbind];
    (rewrite HC1 by (auto using fl_offset_range; cbn; lia)); clear HC1;
    cbn [index_error]; rewrite slots_region; cbn [fst snd fl_offset loc_val]; change (0 + 1) with 1;
    (destruct ((fst (region g1 RALL) <=? _) && _) eqn:Er'; [|reflexivity]); cbn [rbind];
    apply andb_prop in Er; destruct Er as [Er1 Er2]; apply andb_prop in Er'; destruct Er' as [Er3 Er4]; zcmp;
    destruct M3 as (M3 & M4 & M5); destruct M3' as (M3' & M4' & M5'); unfold in_int in *;
    arith; reflexivity.
  - destruct q as [|x [|y [|z [|? ?]]]]; try discriminate. destruct fl as [|f [|f1 [|f2 [|? ?]]]]; try discriminate.
    set (g0 := nth 0 gs (0, 0, 0)). set (g1 := nth 1 gs (0, 0, 0)). set (g2 := nth 2 gs (0, 0, 0)).
    assert (Eg : gs = [g0; g1; g2]) by (subst gs; reflexivity).
    assert (Hfit : Forall dim_fits (shape3 (pd3_size o))).
    { rewrite HS. eapply Forall_impl; [|exact HF]. apply shape_ok_fits. }
    pose proof (srange3_eq true (pd3_size o) RALL RALL RALL Hfit) as HR. cbv zeta in HR.
    change (dimof3 (pd3_size o) 0) with (nth 0 (shape3 (pd3_size o)) (0, 0, 0)) in HR.
    change (dimof3 (pd3_size o) 1) with (nth 1 (shape3 (pd3_size o)) (0, 0, 0)) in HR.
    change (dimof3 (pd3_size o) 2) with (nth 2 (shape3 (pd3_size o)) (0, 0, 0)) in HR.
    rewrite HS in HR. fold g0 g1 g2 in HR.
    rewrite Eg in HF. inversion_clear HF as [|? ? Hg0 HF']. inversion_clear HF' as [|? ? Hg1 HF]. inversion_clear HF as [|? ? Hg2 _].
    destruct (shape_margin _ Hg0) as (M1 & M2 & M3). destruct (shape_margin _ Hg1) as (M1' & M2' & M3').
    destruct (shape_margin _ Hg2) as (M1'' & M2'' & M3'').
    inversion_clear Hqi as [|? ? Hx Hqi']. inversion_clear Hqi' as [|? ? Hy Hqi]. inversion_clear Hqi as [|? ? Hz _].
    rewrite Eg.
    cbn [m_at m_lval]. unfold at3. rewrite Hd. cbn [check_data is_null rbind].
    rewrite Hn by assumption. unfold access_error. destruct (N <=? n); [reflexivity|]. cbn [rbind].
    rewrite !flag_dim_eq. cbn [flag_error]. change (0 + 1) with 1. change (1 + 1) with 2.
    destruct l0, f; cbn [rbind]; try reflexivity;
    destruct l1, f1; cbn [rbind]; try reflexivity;
    destruct l2, f2; cbn [rbind]; try reflexivity;
    rewrite HR; cbn [rbind];
    (match goal with |- context [check_range3 true ?r 0 ?l x ?off] =>
      pose proof (check_range3_eq r 0 l x off ltac:(lia)) as HC0; pose proof (check_range3_eq r 1) as HC1;
      pose proof (check_range3_eq r 2) as HC2 end);
    unfold faces3 in HC0, HC1, HC2; cbn [r3_begin r3_size c0 c1 c2] in HC0, HC1, HC2; cbv zeta in HC0, HC1, HC2;
    change (Z.to_nat 0) with O in HC0; change (Z.to_nat 1) with 1%nat in HC1; change (Z.to_nat 2) with 2%nat in HC2;
    cbn [nth] in HC0, HC1, HC2;
    rewrite <- region_pair in HC0, HC1, HC2;
    (rewrite HC0 by (auto using fl_offset_range; cbn; lia)); clear HC0;
    cbn [index_error]; rewrite slots_region; cbn [fst snd fl_offset loc_val];
    (destruct ((fst (region g0 RALL) <=? _) && _) eqn:Er; [|reflexivity]); cbn [rbind];
    (rewrite HC1 by (auto using fl_offset_range; cbn; lia)); clear HC1;
    cbn [index_error]; rewrite slots_region; cbn [fst snd fl_offset loc_val]; change (0 + 1) with 1;
    (destruct ((fst (region g1 RALL) <=? _) && _) eqn:Er'; [|reflexivity]); cbn [rbind];
    (rewrite HC2 by (auto using fl_offset_range; cbn; lia)); clear HC2;
    cbn [index_error]; rewrite slots_region; cbn [fst snd fl_offset loc_val]; change (1 + 1) with 2;
    (destruct ((fst (region g2 RALL) <=? _) && _) eqn:Er''; [|reflexivity]); cbn [rbind];
    apply andb_prop in Er; destruct Er as [Er1 Er2]; apply andb_prop in Er'; destruct Er' as [Er3 Er4];
    apply andb_prop in Er''; destruct Er'' as [Er5 Er6]; zcmp;
    destruct M3 as (M3 & M4 & M5); destruct M3' as (M3' & M4' & M5'); destruct M3'' as (M3'' & M4'' & M5'');
    unfold in_int in *; arith; reflexivity.
Qed.

Lemma at_empty k m o n q fl :
  emp k o -> length q = length (k_locs k) -> length fl = length (k_locs k) ->
  m_at true k m o n q fl = Err ENoData.
Proof.
  intros H Hq Hfl.
  destruct k as [N l0|N l0 l1|N l0 l1 l2]; destruct o as [o|o|o]; try contradiction; cbn [emp k_locs length] in *;
  destruct H as (_ & H & _).
  - destruct q as [|x [|? ?]]; try discriminate. destruct fl as [|f [|? ?]]; try discriminate.
    cbn [m_at]. unfold at1. rewrite H. reflexivity.
  - destruct q as [|x [|y [|? ?]]]; try discriminate. destruct fl as [|f [|f1 [|? ?]]]; try discriminate.
    cbn [m_at]. unfold at2. rewrite H. reflexivity.
  - destruct q as [|x [|y [|z [|? ?]]]]; try discriminate. destruct fl as [|f [|f1 [|f2 [|? ?]]]]; try discriminate.
    cbn [m_at]. unfold at3. rewrite H. reflexivity.
Qed.

Lemma index_error_none d ls gs q fl :
  length gs = length ls -> length q = length ls -> length fl = length ls ->
  (index_error d ls gs q fl = None <-> in_box (slot_box gs ls) (slot_of q fl)).
Proof.
  revert d gs q fl. induction ls as [|l ls IH]; intros d [|g gs] [|x q] [|f fl] H1 H2 H3; try discriminate.
  - cbn. split; [constructor|reflexivity].
  - cbn [index_error]. unfold slot_box, slot_of. cbn [combine map]. fold (slot_box gs ls). fold (slot_of q fl).
    cbn [length] in *. specialize (IH (d + 1) gs q fl ltac:(lia) ltac:(lia) ltac:(lia)).
    destruct (_ && _) eqn:E.
    + apply andb_prop in E. destruct E as [E1 E2]. zcmp. rewrite IH. split.
      * intros H. constructor; auto.
      * inversion 1; auto.
    + split; [discriminate|]. inversion 1; subst. cbv beta in *.
      apply andb_false_iff in E. destruct E as [E|E]; zcmp; lia.
Qed.

Lemma access_none N ls gs n q fl :
  length gs = length ls -> length q = length ls -> length fl = length ls ->
  access_error N ls gs n q fl = None -> n < N /\ in_box (slot_box gs ls) (slot_of q fl).
Proof.
  intros H1 H2 H3. unfold access_error. destruct (N <=? n) eqn:E; [discriminate|]. zcmp.
  destruct (flag_error 0 ls fl); [discriminate|]. intros H. split; [assumption|].
  now apply (index_error_none 0).
Qed.

Lemma at_live k m o gs f bs n q fl :
  kok k -> rep k m o (ALive gs f) bs ->
  length q = length (k_locs k) -> length fl = length (k_locs k) -> Forall in_int q -> 0 <= n ->
  m_at true k m o n q fl =
  match access_error (k_N k) (k_locs k) gs n q fl with
  | Some e => Err e
  | None => Ok (Ptr (hd O bs) (lin (sbox k gs) n (slot_of q fl)))
  end.
Proof.
  intros HN HR Hq Hfl Hqi Hn. pose proof (rep_data _ _ _ _ _ HR) as Hd. pose proof (rep_class _ _ _ _ _ HR) as Hc.
  pose proof (rep_size _ _ _ _ _ HR) as Hs. cbn [a_shape] in Hs. cbn [rep] in HR.
  destruct HR as ((HL & HF & HV) & Hv & HR & Hh).
  rewrite (at_checks k m o gs) by assumption.
  destruct (access_error _ _ _ _ _ _) eqn:E; [reflexivity|].
  apply access_none in E; [|assumption|assumption|assumption]. destruct E as [E1 E2].
  eapply lval_ok; try eassumption. lia.
Qed.

Lemma at_broken k m o gs nb bs n q fl e :
  kok k -> rep k m o (ABroken gs nb) bs ->
  length q = length (k_locs k) -> length fl = length (k_locs k) -> Forall in_int q ->
  access_error (k_N k) (k_locs k) gs n q fl = Some e ->
  m_at true k m o n q fl = Err e.
Proof.
  intros HN HR Hq Hfl Hqi E. pose proof (rep_data _ _ _ _ _ HR) as Hd. pose proof (rep_class _ _ _ _ _ HR) as Hc.
  pose proof (rep_size _ _ _ _ _ HR) as Hs. cbn [a_shape] in Hs. cbn [rep] in HR.
  destruct HR as ((HL & HF & HV) & Hv & HR & Hh).
  rewrite (at_checks k m o gs) by assumption. now rewrite E.
Qed.

(** ** data_pt *)

Lemma data_pt_ok chk k m o gs f bs n :
  kok k -> rep k m o (ALive gs f) bs -> 0 <= n < k_N k ->
  m_data_pt chk k m o n = Ok (Ptr (hd O bs) (n * vol (sbox k gs))).
Proof.
  intros HN HR Hn. cbn [rep] in HR. destruct HR as ((HL & HF & HV) & Hv & HR & _). unfold kok, sbox in *.
  destruct k as [N l0|N l0 l1|N l0 l1 l2]; destruct o as [o|o|o]; try contradiction;
  destruct gs as [|g0 [|g1 [|g2 [|g3 gs]]]]; try contradiction;
  destruct bs as [|b [|t [|t2 [|t3 bs]]]]; try contradiction; cbn [liv k_N k_locs hd] in *;
  unfold slot_box in *; cbn [combine map] in *; cbn [m_data_pt].
  - inversion_clear HF as [|? ? Hg _]. now apply data_pt1_ok.
  - inversion_clear HF as [|? ? Hg HF']. inversion_clear HF' as [|? ? Hg1 _].
    rewrite vol2 in Hv. pose proof (slot_count_nonneg g0 l0 Hg). pose proof (slot_count_nonneg g1 l1 Hg1).
    eapply data_pt2_ok; try eassumption. nia.
  - inversion_clear HF as [|? ? Hg HF']. inversion_clear HF' as [|? ? Hg1 HF]. inversion_clear HF as [|? ? Hg2 _].
    rewrite vol3 in Hv. pose proof (slot_count_nonneg g0 l0 Hg). pose proof (slot_count_nonneg g1 l1 Hg1).
    pose proof (slot_count_nonneg g2 l2 Hg2).
    eapply data_pt3_ok; try eassumption; nia.
Qed.

Lemma data_pt_err k m o a bs n :
  kok k -> rep k m o a bs -> k_N k <= n -> m_data_pt true k m o n = Err (EN n (k_N k - 1)).
Proof.
  intros HN HR Hn. pose proof (rep_class _ _ _ _ _ HR) as Hc. unfold kok in HN.
  assert (Hn' : forall N, 1 <= N <= INT_MAX -> N <= n -> check_n true N n = Err (EN n (N - 1))).
  { intros N HN' H. unfold check_n. rewrite Z.geb_leb. apply Z.leb_le in H. rewrite H.
    rewrite u2i_small by lia. arith. reflexivity. }
  destruct k as [N l0|N l0 l1|N l0 l1 l2]; destruct o as [o|o|o]; try contradiction; cbn [m_data_pt k_N] in *.
  - unfold data_pt1. now rewrite Hn'.
  - unfold data_pt2. now rewrite Hn'.
  - unfold data_pt3. now rewrite Hn'.
Qed.

End Kind.
