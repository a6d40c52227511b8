(** Representation of two-dimensional arrays. *)

From Coq Require Import ZArith List Bool Lia.
From Verif Require Import Base M_Flags M_Loop M_RS1 M_RS2 M_Heap M_PD1 M_PD2 Spec Spec_Loop Spec_Array
  L_Base L_RS L_Range L_Loop L_Heap L_Lin L_Rep L_PD1.
Import ListNotations.
Open Scope Z_scope.

Lemma scheck_dim_eq d n i p : shape_ok (n, i, p) ->
  scheck_dim d i n p = if (i =? 0) && negb (n + p =? 0) then Err (EInZero d) else Ok tt.
Proof.
  intros H. unfold shape_ok in H. unfold scheck_dim.
  destruct (i =? 0); cbn [andb]; [|reflexivity]. arith. cbn [rbind]. reflexivity.
Qed.

Section PD2.
Context {V : Type}.
Implicit Types m : mem V.
Variable N : Z.
Variables l0 l1 : loc.
Hypothesis HN : 1 <= N <= INT_MAX.

Definition emp2 (o : pd2) : Prop :=
  pd2_size o = size0_2 /\ pd2_data o = Null /\ pd2_pt1 o = Null /\ Z.of_nat (length (pd2_pt0 o)) = N.

Definition size2_of (g0 g1 : dim_shape) : sizeT2 :=
  let '(n, i, p) := g0 in let '(n1, i1, p1) := g1 in mkSize2 (i, i1) (n, n1) (p, p1).

Definition liv2 m (o : pd2) (g0 g1 : dim_shape) (b t : nat) : Prop :=
  let P0 := slot_count g0 l0 in
  let P1 := slot_count g1 l1 in
  pd2_size o = size2_of g0 g1 /\ pd2_data o = Ptr b 0 /\ pd2_pt1 o = Ptr t 0 /\
  Z.of_nat (length (pd2_pt0 o)) = N /\ b <> t /\
  blen m b (N * (P0 * P1)) /\ table m t (N * P0) (N * P0) b P1 (fst (fst g1)) /\
  slots_upto (pd2_pt0 o) N t P0 (fst (fst g0)).

(** After a failed allocation of the table. *)
Definition brk2 m (o : pd2) (g0 g1 : dim_shape) (b : nat) : Prop :=
  pd2_size o = size2_of g0 g1 /\ pd2_data o = Ptr b 0 /\ pd2_pt1 o = Null /\
  Z.of_nat (length (pd2_pt0 o)) = N /\ block m b <> None.

Lemma nulls2 m o :
  Z.of_nat (length (pd2_pt0 o)) = N ->
  exists o', for_uint 0 N (fun n => @set_pt0_2 V n Null) (m, o) = Ret (m, o') tt /\
    pd2_size o' = pd2_size o /\ pd2_data o' = pd2_data o /\ pd2_pt1 o' = pd2_pt1 o /\
    Z.of_nat (length (pd2_pt0 o')) = N /\ forall k, 0 <= k < N -> znth (pd2_pt0 o') k = Some Null.
Proof.
  intros HL.
  destruct (for_uint_inv (fun k (s : mem V * pd2) =>
    fst s = m /\ pd2_size (snd s) = pd2_size o /\ pd2_data (snd s) = pd2_data o /\
    pd2_pt1 (snd s) = pd2_pt1 o /\ Z.of_nat (length (pd2_pt0 (snd s))) = N /\
    forall j, 0 <= j < k -> znth (pd2_pt0 (snd s)) j = Some Null) N
    (fun n => @set_pt0_2 V n Null) (m, o)) as ([m' o'] & E & I1 & I2 & I3 & I4 & I5 & I6).
  - lia.
  - conjs; auto. intros; lia.
  - intros k [m1 o1] Hk (I1 & I2 & I3 & I4 & I5 & I6). cbn [fst snd] in *. subst m1.
    unfold set_pt0_2. mon. rewrite arr_set_ok by lia.
    eexists. split; [reflexivity|]. cbn [fst snd pd2_size pd2_data pd2_pt0 pd2_pt1].
    conjs; auto; [now rewrite upd_length|].
    intros j Hj. rewrite znth_upd by lia. destruct (j =? k) eqn:Ej; zcmp; auto. apply I6. lia.
  - cbn [fst snd] in *. subst m'. exists o'. auto 10.
Qed.

Lemma ctor2_ok m :
  exists o, ctor2 (V := V) N (m, blank2 N) = Ret (m, o) tt /\ emp2 o /\
            forall k, 0 <= k < N -> znth (pd2_pt0 o) k = Some Null.
Proof.
  unfold ctor2. replace (N =? 0) with false by (symmetry; apply Z.eqb_neq; lia).
  destruct (nulls2 m (blank2 N)) as (o & E & H1 & H2 & H3 & H4 & H5).
  { cbn [blank2 pd2_pt0]. rewrite repeat_length. lia. }
  exists o. split; [exact E|]. split; [|exact H5]. repeat split; auto.
Qed.

(** The part of [alloc2] that fills the table. *)
Definition fill2 chk (s : sizeT2) (P0 P1 : Z) : M (mem V * pd2) unit :=
  for_uint 0 N (fun n =>
        do* o := get_snd in
        do* q := on_fst (gets (fun m => padd m (pd2_pt1 o) (umul n P0))) in
        set_pt0_2 n q ;;;
        for_uint 0 P0 (fun ii =>
          do* o := get_snd in
          do* a := on_fst (gets (fun m => padd m (pd2_data o) (umul (umul n P0) P1))) in
          do* a := on_fst (gets (fun m => padd m a (umul ii P1))) in
          do* c := on_fst (gets (fun m => let* q := arr_get (pd2_pt0 o) n in pidx m q ii)) in
          on_fst (store c (CPtr a)) ;;;
          do* nn := lift (sn2 chk s 1) in
          do* c := on_fst (gets (fun m => let* q := arr_get (pd2_pt0 o) n in pidx m q ii)) in
          do* a := on_fst (gets (fun m => let* a := load_ptr m c in padd m a nn)) in
          on_fst (store c (CPtr a))) ;;;
        do* o := get_snd in
        do* nn := lift (sn2 chk s 0) in
        do* q := on_fst (gets (fun m => let* q := arr_get (pd2_pt0 o) n in padd m q nn)) in
        set_pt0_2 n q).

Lemma fill2_ok chk g0 g1 m o b t :
  let P0 := slot_count g0 l0 in
  let P1 := slot_count g1 l1 in
  shape_ok g0 -> shape_ok g1 -> 1 <= P0 -> 1 <= P1 -> N * (P0 * P1) < UINT_MOD -> b <> t ->
  pd2_size o = size2_of g0 g1 -> pd2_data o = Ptr b 0 -> pd2_pt1 o = Ptr t 0 ->
  Z.of_nat (length (pd2_pt0 o)) = N ->
  blen m b (N * (P0 * P1)) -> blen m t (N * P0) ->
  exists m' o', fill2 chk (size2_of g0 g1) P0 P1 (m, o) = Ret (m', o') tt /\
    same_but [t] m m' /\ liv2 m' o' g0 g1 b t.
Proof.
  intros P0 P1 Hg0 Hg1 HP0 HP1 HP Hbt H1 H2 H3 H4 H5 H6.
  destruct g0 as [[n i] p]. destruct g1 as [[n1 i1] p1].
  pose proof (loc_val_range l0) as Hl0. pose proof (loc_val_range l1) as Hl1.
  assert (E0 : P0 = n + i + p + loc_val l0) by reflexivity.
  assert (E1 : P1 = n1 + i1 + p1 + loc_val l1) by reflexivity.
  unfold shape_ok in Hg0, Hg1. clearbody P0 P1.
  set (s := size2_of (n, i, p) (n1, i1, p1)) in *.
  assert (Hs0 : sn2 chk s 0 = Ok n) by (rewrite sn2_0; reflexivity).
  assert (Hs1 : sn2 chk s 1 = Ok n1) by (rewrite sn2_1; reflexivity).
  assert (HPP : 0 <= P0 * P1) by nia.
  unfold fill2.
  match goal with |- context [for_uint 0 N ?f ?st] =>
    destruct (for_uint_inv (fun k (s' : mem V * pd2) =>
      same_but [t] m (fst s') /\ pd2_size (snd s') = s /\ pd2_data (snd s') = Ptr b 0 /\
      pd2_pt1 (snd s') = Ptr t 0 /\ Z.of_nat (length (pd2_pt0 (snd s'))) = N /\
      table (fst s') t (N * P0) (k * P0) b P1 n1 /\
      slots_upto (pd2_pt0 (snd s')) k t P0 n) N f st)
      as ([m' o'] & E & I1 & I2 & I3 & I4 & I5 & I6 & I7) end.
  - lia.
  - cbn [fst snd]. conjs; auto; [apply same_but_refl | now apply table_start | apply slots_upto_0].
  - intros k [m2 o2] Hk (I1 & I2 & I3 & I4 & I5 & I6 & I7). cbn [fst snd] in *.
    assert (HkP : 0 <= k * P0 /\ k * P0 + P0 <= N * P0) by nia.
    assert (HNP : N * P0 <= N * P0 * P1) by nia.
    assert (HkPP : 0 <= k * P0 * P1 /\ k * P0 * P1 + P0 * P1 <= N * (P0 * P1)) by nia.
    rewrite b_get, b_gets, I4, umul_small by nia.
    rewrite (padd_blen _ _ (N * P0)) by (try (eapply table_blen; eassumption); lia).
    unfold set_pt0_2 at 1. unfold bind at 1. rewrite b_get. rewrite arr_set_ok by lia. rewrite b_ok.
    unfold upd_snd at 1. cbn [fst snd]. rewrite Z.add_0_l.
    set (o3 := mkPD2 _ _ _ _).
    assert (Ho3 : arr_get (pd2_pt0 o3) k = Ok (Ptr t (k * P0))).
    { apply arr_get_ok. cbn [o3 pd2_pt0]. rewrite znth_upd by lia. now rewrite Z.eqb_refl. }
    match goal with |- context [bind (for_uint 0 P0 ?f) _ ?st] =>
      destruct (for_uint_inv (fun c (s' : mem V * pd2) =>
        same_but [t] m (fst s') /\ snd s' = o3 /\
        table (fst s') t (N * P0) (k * P0 + c) b P1 n1) P0 f st)
        as ([m4 o4] & E & J1 & J2 & J3) end.
    + nia.
    + cbn [fst snd]. rewrite Z.add_0_r. auto.
    + intros c [m4 o4] Hc (J1 & J2 & J3). cbn [fst snd] in *. subst o4.
      assert (Hcw : 0 <= c * P1 /\ c * P1 + P1 <= P0 * P1) by nia.
      assert (Hd4 : blen m4 b (N * (P0 * P1))).
      { eapply blen_same; [|exact J1|exact H5]. cbn. intuition. }
      rewrite b_get, b_gets. cbn [o3 pd2_data]. rewrite I3.
      rewrite umul_small by nia.
      rewrite (padd_blen _ _ (N * (P0 * P1))) by (auto; lia).
      rewrite b_gets, umul_small by nia.
      rewrite (padd_blen _ _ (N * (P0 * P1))) by (auto; lia).
      rewrite b_gets. fold o3. rewrite Ho3. cbn [rbind].
      rewrite (pidx_blen _ _ (N * P0)) by (try (eapply table_blen; eassumption); lia).
      destruct (table_store _ _ _ _ _ _ _ (Ptr b (0 + k * P0 * P1 + c * P1)) J3 ltac:(lia))
        as (m5 & S5 & Q1 & Q2 & Q3 & _).
      rewrite (b_store _ _ _ _ _ _ S5). rewrite Hs1, b_ok.
      rewrite b_gets. cbn [rbind].
      rewrite (pidx_blen _ _ (N * P0)) by (try (eapply table_blen; eassumption); lia).
      rewrite b_gets, Q3. cbn [rbind].
      assert (Hd5 : blen m5 b (N * (P0 * P1))).
      { eapply blen_same; [|exact Q1|exact Hd4]. cbn. intuition. }
      rewrite (padd_blen _ _ (N * (P0 * P1))) by (auto; lia).
      destruct (table_store _ _ _ _ _ _ _ (Ptr b (0 + k * P0 * P1 + c * P1 + n1)) Q2 ltac:(lia))
        as (m6 & S6 & R1 & R2 & R3 & R4).
      exists (m6, o3). split; [unfold on_fst; rewrite S6; reflexivity|]. cbn [fst snd].
      split; [eapply same_but_trans; [exact J1|]; eapply same_but_trans; eassumption|].
      split; [reflexivity|].
      replace (k * P0 + (c + 1)) with (k * P0 + c + 1) by lia. apply R4. f_equal. nia.
    + cbn [fst snd] in *. subst o4. rewrite (bind_ret _ _ _ _ _ E).
      rewrite b_get, Hs0, b_ok, b_gets, Ho3. cbn [rbind].
      rewrite (padd_blen _ _ (N * P0)) by (try (eapply table_blen; eassumption); lia).
      unfold set_pt0_2. rewrite b_get.
      assert (HL3 : Z.of_nat (length (pd2_pt0 o3)) = N) by (cbn [o3 pd2_pt0]; now rewrite upd_length).
      rewrite arr_set_ok by lia. rewrite b_ok.
      unfold upd_snd. cbn [fst snd].
      eexists. split; [reflexivity|]. cbn [fst snd pd2_size pd2_data pd2_pt0 pd2_pt1].
      conjs; auto.
      * now rewrite upd_length.
      * replace ((k + 1) * P0) with (k * P0 + P0) by lia. assumption.
      * apply slots_upto_next; [|lia]. cbn [o3 pd2_pt0]. apply slots_upto_upd; [assumption|lia].
  - cbn [fst snd] in *. exists m', o'. split; [exact E|]. split; [assumption|].
    unfold liv2. cbn [fst snd slot_count]. rewrite <- E0, <- E1.
    conjs; auto. eapply blen_same; [|exact I1|exact H5]. cbn. intuition.
Qed.

Lemma alloc2_ok chk m o g0 g1 :
  let P0 := slot_count g0 l0 in
  let P1 := slot_count g1 l1 in
  let '(n, i, p) := g0 in
  let '(n1, i1, p1) := g1 in
  let call := alloc2 chk N l0 l1 n i p n1 i1 p1 (m, o) in
  shape_ok g0 -> shape_ok g1 -> N * (P0 * P1) < UINT_MOD -> Z.of_nat (length (pd2_pt0 o)) = N ->
  pd2_data o = Null -> pd2_pt1 o = Null ->
  if (i =? 0) && negb (n + p =? 0) then call = Thr (m, o) (EInZero 0)
  else if (i1 =? 0) && negb (n1 + p1 =? 0) then call = Thr (m, o) (EInZero 1)
  else if P0 * P1 =? 0 then call = Ret (m, o) tt
  else if fails m (tick m) then call = Thr (mem_tick m, o) ENoMem
  else let m1 := mem_new m (N * (P0 * P1)) in
  if fails m (S (tick m)) then
    exists o', call = Thr (mem_tick m1, o') ENoMem /\ brk2 (mem_tick m1) o' g0 g1 (length (blocks m))
  else let m2 := mem_new m1 (N * P0) in
  exists m' o', call = Ret (m', o') tt /\ same_but [S (length (blocks m))] m2 m' /\
                liv2 m' o' g0 g1 (length (blocks m)) (S (length (blocks m))).
Proof.
  intros P0 P1. destruct g0 as [[n i] p]. destruct g1 as [[n1 i1] p1].
  intros call Hg0 Hg1 HP HL Hd Ht.
  pose proof (shape_ok_fits _ Hg0) as Hf0. pose proof (shape_ok_fits _ Hg1) as Hf1.
  pose proof (loc_val_range l0) as Hl0. pose proof (loc_val_range l1) as Hl1.
  assert (Hf : Forall dim_fits (shape2 (mkSize2 (i, i1) (n, n1) (p, p1)))) by (apply Forall_two; assumption).
  pose proof (dim_facts2 chk _ 0 ltac:(lia) Hf) as F0.
  pose proof (dim_facts2 chk _ 1 ltac:(lia) Hf) as F1.
  change (dimof2 _ 0) with (n, i, p) in F0. change (dimof2 _ 1) with (n1, i1, p1) in F1.
  destruct F0 as (_ & _ & _ & F0). destruct (F0 RALL) as (_ & _ & Z0 & _). clear F0.
  destruct F1 as (_ & _ & _ & F1). destruct (F1 RALL) as (_ & _ & Z1 & _). clear F1.
  cbn [region fst snd] in Z0, Z1.
  pose proof Hg0 as G0. pose proof Hg1 as G1. unfold shape_ok in G0, G1.
  assert (E0 : P0 = n + i + p + loc_val l0) by reflexivity.
  assert (E1 : P1 = n1 + i1 + p1 + loc_val l1) by reflexivity.
  assert (U0 : uadd (i + p - - n) (loc_val l0) = P0) by (rewrite uadd_small; lia).
  assert (U1 : uadd (i1 + p1 - - n1) (loc_val l1) = P1) by (rewrite uadd_small; lia).
  assert (HPP : 0 <= P0 * P1) by nia.
  assert (U2 : umul P0 P1 = P0 * P1) by (apply umul_small; nia).
  assert (Ez : call =
    if (i =? 0) && negb (n + p =? 0) then Thr (m, o) (EInZero 0)
    else if (i1 =? 0) && negb (n1 + p1 =? 0) then Thr (m, o) (EInZero 1)
    else if P0 * P1 =? 0 then Ret (m, o) tt
    else catch_bad_alloc (
      do* d := on_fst (hnew (umul (P0 * P1) N)) in
      set_data2 d ;;;
      set_size2 (size2_of (n, i, p) (n1, i1, p1)) ;;;
      do* t := on_fst (hnew (umul N P0)) in
      set_pt1_2 t ;;;
      fill2 chk (size2_of (n, i, p) (n1, i1, p1)) P0 P1)
      (throw ENoMem) (m, o)).
  { unfold call, alloc2. rewrite b_get. rewrite Hd. cbn [is_null negb].
    rewrite mk_sizeT2_fits by assumption. unfold scheck2. cbn [s2_in s2_n s2_p fst snd].
    rewrite !scheck_dim_eq by assumption.
    destruct ((i =? 0) && _); [reflexivity|]. cbn [rbind].
    destruct ((i1 =? 0) && _); [reflexivity|]. rewrite b_ok.
    rewrite Z0, b_ok, Z1, b_ok, U0, U1, U2. destruct (P0 * P1 =? 0); reflexivity. }
  rewrite Ez. clear Ez.
  destruct ((i =? 0) && _); [reflexivity|]. destruct ((i1 =? 0) && _); [reflexivity|].
  destruct (P0 * P1 =? 0) eqn:EP; [reflexivity|]. zcmp.
  assert (HP0 : 1 <= P0) by nia. assert (HP1 : 1 <= P1) by nia.
  unfold catch_bad_alloc. rewrite b_fst, hnew_eq.
  destruct (fails m (tick m)); [reflexivity|].
  rewrite (umul_small (P0 * P1) N) by nia. rewrite (Z.mul_comm (P0 * P1) N).
  set (m1 := mem_new m (N * (P0 * P1))). set (b := length (blocks m)).
  assert (Hb : blen m1 b (N * (P0 * P1))) by (apply blen_new; nia).
  unfold set_data2, set_size2. rewrite !b_upd. cbn [pd2_data pd2_size pd2_pt0 pd2_pt1].
  rewrite b_fst, hnew_eq. change (fails m1 (tick m1)) with (fails m (S (tick m))).
  destruct (fails m (S (tick m))).
  - eexists. split; [reflexivity|]. unfold brk2. cbn [pd2_data pd2_size pd2_pt0 pd2_pt1].
    rewrite Ht. conjs; auto. rewrite block_tick. destruct Hb as (cs & -> & _). discriminate.
  - cbv zeta. set (m2 := mem_new m1 (N * P0)). assert (HNP : 0 <= N * P0 <= N * (P0 * P1)) by nia.
    rewrite umul_small by nia. fold m2.
    unfold set_pt1_2. rewrite b_upd. cbn [pd2_data pd2_size pd2_pt0 pd2_pt1].
    assert (Eb1 : length (blocks m1) = S b) by apply blocks_new. rewrite Eb1.
    match goal with |- context [fill2 _ _ _ _ (_, ?x)] =>
      destruct (fill2_ok chk (n, i, p) (n1, i1, p1) m2 x b (S b)) as (m' & o' & E & Q1 & Q2) end; auto.
    + apply blen_new_old. assumption.
    + unfold m2. rewrite <- Eb1. apply blen_new. lia.
    + exists m', o'. change (slot_count (n, i, p) l0) with P0 in E. change (slot_count (n1, i1, p1) l1) with P1 in E.
      rewrite E. auto.
Qed.

Lemma clear2_ok m o g0 g1 b t :
  liv2 m o g0 g1 b t ->
  exists o', clear2 (m, o) = Ret (set_block (set_block m b None) t None, o') tt /\ emp2 o'.
Proof.
  intros (H1 & H2 & H3 & H4 & H5 & (cs & H6 & _) & (ct & H7 & _) & _).
  unfold clear2. rewrite b_get, H2. cbn [is_null].
  rewrite b_fst, (hdelete_ok _ _ _ H6).
  unfold set_data2. rewrite b_upd, b_fst. rewrite H3.
  rewrite (hdelete_ok _ _ ct) by (rewrite block_set_ne; assumption).
  unfold set_pt1_2. rewrite b_upd. unfold set_size2, upd_snd. cbn [fst snd].
  eexists. split; [reflexivity|]. repeat split; auto.
Qed.

Lemma clear2_brk m o g0 g1 b :
  brk2 m o g0 g1 b ->
  exists o', clear2 (m, o) = Ret (set_block m b None, o') tt /\ emp2 o'.
Proof.
  intros (H1 & H2 & H3 & H4 & H5).
  destruct (block m b) as [cs|] eqn:Hb; [|congruence].
  unfold clear2. rewrite b_get, H2. cbn [is_null].
  rewrite b_fst, (hdelete_ok _ _ _ Hb).
  unfold set_data2. rewrite b_upd, b_fst. rewrite H3. cbn [hdelete].
  unfold set_pt1_2. rewrite b_upd. unfold set_size2, upd_snd. cbn [fst snd].
  eexists. split; [reflexivity|]. repeat split; auto.
Qed.

Lemma lval2_ok m o g0 g1 b t k x y :
  liv2 m o g0 g1 b t -> 0 <= k < N ->
  fst (slots g0 l0) <= x < snd (slots g0 l0) -> fst (slots g1 l1) <= y < snd (slots g1 l1) ->
  lval2 m o k x y = Ok (Ptr b (lin [slots g0 l0; slots g1 l1] k [x; y])).
Proof.
  destruct g0 as [[n i] p]. destruct g1 as [[n1 i1] p1].
  intros (H1 & H2 & H3 & H4 & H5 & H6 & H7 & H8) Hk Hx Hy.
  unfold lval2. rewrite (arr_get_ok _ _ _ (H8 k Hk)). cbn [rbind].
  unfold slots in *. cbn [fst snd lin slot_count] in *.
  set (P0 := n + i + p + loc_val l0) in *. set (P1 := n1 + i1 + p1 + loc_val l1) in *.
  assert (A : 0 <= k * P0 /\ k * P0 + P0 <= N * P0) by nia.
  rewrite (pidx_blen _ _ _ _ _ (table_blen _ _ _ _ _ _ _ H7)) by lia. cbn [rbind].
  rewrite (table_load _ _ _ _ _ _ _ _ H7) by lia. cbn [rbind].
  assert (B : 0 <= (k * P0 + n + x) * P1 /\ (k * P0 + n + x) * P1 + P1 <= N * P0 * P1) by nia.
  rewrite (pidx_blen _ _ _ _ _ H6) by lia. do 2 f_equal.
  replace (i + p + loc_val l0 - - n) with P0 by lia. replace (i1 + p1 + loc_val l1 - - n1) with P1 by lia. nia.
Qed.

Lemma data_pt2_ok chk m o g0 g1 b t k :
  shape_ok g0 -> shape_ok g1 -> 1 <= slot_count g0 l0 ->
  liv2 m o g0 g1 b t -> 0 <= k < N ->
  data_pt2 chk N m o k = Ok (Ptr b (k * vol [slots g0 l0; slots g1 l1])).
Proof.
  intros Hg0 Hg1 HP0. destruct g0 as [[n i] p]. destruct g1 as [[n1 i1] p1].
  intros (H1 & H2 & H3 & H4 & H5 & H6 & H7 & H8) Hk. unfold shape_ok in Hg0, Hg1.
  pose proof (loc_val_range l0). pose proof (loc_val_range l1).
  unfold data_pt2. assert (E : check_n chk N k = Ok tt).
  { unfold check_n. replace (k >=? N) with false by (symmetry; rewrite Z.geb_leb; apply Z.leb_gt; lia). now destruct chk. }
  rewrite E. cbn [rbind]. rewrite (arr_get_ok _ _ _ (H8 k Hk)). rewrite H1, sn2_0, sn2_1. cbn [s2_n size2_of fst snd rbind].
  cbn [slot_count fst snd] in *.
  set (P0 := n + i + p + loc_val l0) in *. set (P1 := n1 + i1 + p1 + loc_val l1) in *.
  assert (A : 0 <= k * P0 /\ k * P0 + P0 <= N * P0) by nia.
  arith. rewrite (pidx_blen _ _ _ _ _ (table_blen _ _ _ _ _ _ _ H7)) by lia. cbn [rbind].
  rewrite (table_load _ _ _ _ _ _ _ _ H7) by lia. cbn [rbind]. arith.
  assert (B : 0 <= (k * P0 + n + - n) * P1 /\ (k * P0 + n + - n) * P1 + P1 <= N * P0 * P1) by nia.
  rewrite (padd_blen _ _ _ _ _ H6) by lia. do 2 f_equal.
  unfold vol, slots; cbn [map fst snd zprod fold_right].
  replace (i + p + loc_val l0 - - n) with P0 by lia. replace (i1 + p1 + loc_val l1 - - n1) with P1 by lia. ring.
Qed.

End PD2.
