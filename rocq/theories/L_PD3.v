(** Representation of three-dimensional arrays. *)

From Coq Require Import ZArith List Bool Lia.
From Verif Require Import Base M_Flags M_Loop M_RS1 M_RS2 M_RS3 M_Heap M_PD1 M_PD3 Spec Spec_Loop Spec_Array
  L_Base L_RS L_Range L_Loop L_Heap L_Lin L_Rep L_PD1 L_PD2.
Import ListNotations.
Open Scope Z_scope.

Section PD3.
Context {V : Type}.
Implicit Types m : mem V.
Variable N : Z.
Variables l0 l1 l2 : loc.
Hypothesis HN : 1 <= N <= INT_MAX.

Definition emp3 (o : pd3) : Prop :=
  pd3_size o = size0_3 /\ pd3_data o = Null /\ pd3_pt1 o = Null /\ pd3_pt2 o = Null /\
  Z.of_nat (length (pd3_pt0 o)) = N.

Definition size3_of (g0 g1 g2 : dim_shape) : sizeT3 :=
  let '(n, i, p) := g0 in let '(n1, i1, p1) := g1 in let '(n2, i2, p2) := g2 in
  mkSize3 (mkI3 i i1 i2) (mkI3 n n1 n2) (mkI3 p p1 p2).

Definition liv3 m (o : pd3) (g0 g1 g2 : dim_shape) (b t1 t2 : nat) : Prop :=
  let P0 := slot_count g0 l0 in
  let P1 := slot_count g1 l1 in
  let P2 := slot_count g2 l2 in
  pd3_size o = size3_of g0 g1 g2 /\ pd3_data o = Ptr b 0 /\ pd3_pt1 o = Ptr t1 0 /\ pd3_pt2 o = Ptr t2 0 /\
  Z.of_nat (length (pd3_pt0 o)) = N /\ b <> t1 /\ b <> t2 /\ t1 <> t2 /\
  blen m b (N * (P0 * P1 * P2)) /\
  table m t1 (N * P0) (N * P0) t2 P1 (fst (fst g1)) /\
  table m t2 (N * P0 * P1) (N * P0 * P1) b P2 (fst (fst g2)) /\
  slots_upto (pd3_pt0 o) N t1 P0 (fst (fst g0)).

(** After a failed allocation of a table: [t] is the first table if it exists. *)
Definition brk3 m (o : pd3) (g0 g1 g2 : dim_shape) (b : nat) (t : option nat) : Prop :=
  pd3_size o = size3_of g0 g1 g2 /\ pd3_data o = Ptr b 0 /\
  pd3_pt1 o = match t with Some t => Ptr t 0 | None => Null end /\ pd3_pt2 o = Null /\
  Z.of_nat (length (pd3_pt0 o)) = N /\ block m b <> None /\
  match t with Some t => b <> t /\ block m t <> None | None => True end.

Lemma nulls3 m o :
  Z.of_nat (length (pd3_pt0 o)) = N ->
  exists o', for_uint 0 N (fun n => @set_pt0_3 V n Null) (m, o) = Ret (m, o') tt /\
    pd3_size o' = pd3_size o /\ pd3_data o' = pd3_data o /\ pd3_pt1 o' = pd3_pt1 o /\ pd3_pt2 o' = pd3_pt2 o /\
    Z.of_nat (length (pd3_pt0 o')) = N /\ forall k, 0 <= k < N -> znth (pd3_pt0 o') k = Some Null.
Proof.
  intros HL.
  destruct (for_uint_inv (fun k (s : mem V * pd3) =>
    fst s = m /\ pd3_size (snd s) = pd3_size o /\ pd3_data (snd s) = pd3_data o /\
    pd3_pt1 (snd s) = pd3_pt1 o /\ pd3_pt2 (snd s) = pd3_pt2 o /\ Z.of_nat (length (pd3_pt0 (snd s))) = N /\
    forall j, 0 <= j < k -> znth (pd3_pt0 (snd s)) j = Some Null) N
    (fun n => @set_pt0_3 V n Null) (m, o)) as ([m' o'] & E & I1 & I2 & I3 & I4 & I5 & I6 & I7).
  - lia.
  - conjs; auto. intros; lia.
  - intros k [m1 o1] Hk (I1 & I2 & I3 & I4 & I5 & I6 & I7). cbn [fst snd] in *. subst m1.
    unfold set_pt0_3. mon. rewrite arr_set_ok by lia.
    eexists. split; [reflexivity|]. cbn [fst snd pd3_size pd3_data pd3_pt0 pd3_pt1 pd3_pt2].
    conjs; auto; [now rewrite upd_length|].
    intros j Hj. rewrite znth_upd by lia. destruct (j =? k) eqn:Ej; zcmp; auto. apply I7. lia.
  - cbn [fst snd] in *. subst m'. exists o'. auto 10.
Qed.

Lemma ctor3_ok m :
  exists o, ctor3 (V := V) N (m, blank3 N) = Ret (m, o) tt /\ emp3 o /\
            forall k, 0 <= k < N -> znth (pd3_pt0 o) k = Some Null.
Proof.
  unfold ctor3. replace (N =? 0) with false by (symmetry; apply Z.eqb_neq; lia).
  destruct (nulls3 m (blank3 N)) as (o & E & H1 & H2 & H3 & H4 & H5 & H6).
  { cbn [blank3 pd3_pt0]. rewrite repeat_length. lia. }
  exists o. split; [exact E|]. split; [|exact H6]. repeat split; auto.
Qed.

(** The part of [alloc3] that fills the tables. *)
Definition fill3 chk (s : sizeT3) (P0 P1 P2 : Z) : M (mem V * pd3) unit :=
      for_uint 0 N (fun n =>
        do* o := get_snd in
        do* q := on_fst (gets (fun m => padd m (pd3_pt1 o) (umul n P0))) in
        set_pt0_3 n q ;;;
        for_uint 0 P0 (fun ii =>
          do* o := get_snd in
          do* a := on_fst (gets (fun m => padd m (pd3_pt2 o) (umul (umul n P0) P1))) in
          do* a := on_fst (gets (fun m => padd m a (umul ii P1))) in
          do* c := on_fst (gets (fun m => let* q := arr_get (pd3_pt0 o) n in pidx m q ii)) in
          on_fst (store c (CPtr a)) ;;;
          for_uint 0 P1 (fun jj =>
            do* o := get_snd in
            do* a := on_fst (gets (fun m => padd m (pd3_data o) (umul (umul (umul n P0) P1) P2))) in
            do* a := on_fst (gets (fun m => padd m a (umul (umul ii P1) P2))) in
            do* a := on_fst (gets (fun m => padd m a (umul jj P2))) in
            do* c := on_fst (gets (fun m =>
              let* q := arr_get (pd3_pt0 o) n in let* c := pidx m q ii in
              let* q := load_ptr m c in pidx m q jj)) in
            on_fst (store c (CPtr a)) ;;;
            do* nn := lift (sn3 chk s 2) in
            do* c := on_fst (gets (fun m =>
              let* q := arr_get (pd3_pt0 o) n in let* c := pidx m q ii in
              let* q := load_ptr m c in pidx m q jj)) in
            do* a := on_fst (gets (fun m => let* a := load_ptr m c in padd m a nn)) in
            on_fst (store c (CPtr a))) ;;;
          do* o := get_snd in
          do* nn := lift (sn3 chk s 1) in
          do* c := on_fst (gets (fun m => let* q := arr_get (pd3_pt0 o) n in pidx m q ii)) in
          do* a := on_fst (gets (fun m => let* a := load_ptr m c in padd m a nn)) in
          on_fst (store c (CPtr a))) ;;;
        do* o := get_snd in
        do* nn := lift (sn3 chk s 0) in
        do* q := on_fst (gets (fun m => let* q := arr_get (pd3_pt0 o) n in padd m q nn)) in
        set_pt0_3 n q).

Lemma fill3_ok chk g0 g1 g2 m o b t1 t2 :
  let P0 := slot_count g0 l0 in
  let P1 := slot_count g1 l1 in
  let P2 := slot_count g2 l2 in
  shape_ok g0 -> shape_ok g1 -> shape_ok g2 -> 1 <= P0 -> 1 <= P1 -> 1 <= P2 ->
  N * (P0 * P1 * P2) < UINT_MOD -> b <> t1 -> b <> t2 -> t1 <> t2 ->
  pd3_size o = size3_of g0 g1 g2 -> pd3_data o = Ptr b 0 -> pd3_pt1 o = Ptr t1 0 -> pd3_pt2 o = Ptr t2 0 ->
  Z.of_nat (length (pd3_pt0 o)) = N ->
  blen m b (N * (P0 * P1 * P2)) -> blen m t1 (N * P0) -> blen m t2 (N * P0 * P1) ->
  exists m' o', fill3 chk (size3_of g0 g1 g2) P0 P1 P2 (m, o) = Ret (m', o') tt /\
    same_but [t1; t2] m m' /\ liv3 m' o' g0 g1 g2 b t1 t2.
Proof.
  intros P0 P1 P2 Hg0 Hg1 Hg2 HP0 HP1 HP2 HP Hb1 Hb2 H12 H1 H2 H3 H3' H4 H5 H6 H6'.
  destruct g0 as [[n i] p]. destruct g1 as [[n1 i1] p1]. destruct g2 as [[n2 i2] p2].
  pose proof (loc_val_range l0) as Hl0. pose proof (loc_val_range l1) as Hl1. pose proof (loc_val_range l2) as Hl2.
  assert (E0 : P0 = n + i + p + loc_val l0) by reflexivity.
  assert (E1 : P1 = n1 + i1 + p1 + loc_val l1) by reflexivity.
  assert (E2 : P2 = n2 + i2 + p2 + loc_val l2) by reflexivity.
  unfold shape_ok in Hg0, Hg1, Hg2. clearbody P0 P1 P2.
  set (s := size3_of (n, i, p) (n1, i1, p1) (n2, i2, p2)) in *.
  assert (Hs0 : sn3 chk s 0 = Ok n) by (rewrite sn3_0; reflexivity).
  assert (Hs1 : sn3 chk s 1 = Ok n1) by (rewrite sn3_1; reflexivity).
  assert (Hs2 : sn3 chk s 2 = Ok n2) by (rewrite sn3_2; reflexivity).
  replace (N * (P0 * P1 * P2)) with (N * P0 * P1 * P2) in * by ring.
  assert (HA : 1 <= N * P0) by nia.
  assert (HB : 1 <= N * P0 * P1) by nia.
  assert (HAB : N * P0 <= N * P0 * P1) by nia.
  assert (HBC : N * P0 * P1 <= N * P0 * P1 * P2) by nia.
  assert (Hin1 : In t1 [t1; t2]) by (now left). assert (Hin2 : In t2 [t1; t2]) by (right; now left).
  assert (Hnb : ~ In b [t1; t2]) by (cbn; intuition).
  assert (Hi1 : incl [t1] [t1; t2]) by (intros ? [<-|[]]; assumption).
  assert (Hi2 : incl [t2] [t1; t2]) by (intros ? [<-|[]]; assumption).
  assert (Hn1 : ~ In t1 [t2]) by (cbn; intuition). assert (Hn2 : ~ In t2 [t1]) by (cbn; intuition).
  unfold fill3.
  match goal with |- context [for_uint 0 N ?f ?st] =>
    destruct (for_uint_inv (fun k (s' : mem V * pd3) =>
      same_but [t1; t2] m (fst s') /\ pd3_size (snd s') = s /\ pd3_data (snd s') = Ptr b 0 /\
      pd3_pt1 (snd s') = Ptr t1 0 /\ pd3_pt2 (snd s') = Ptr t2 0 /\ Z.of_nat (length (pd3_pt0 (snd s'))) = N /\
      table (fst s') t1 (N * P0) (k * P0) t2 P1 n1 /\
      table (fst s') t2 (N * P0 * P1) (k * P0 * P1) b P2 n2 /\
      slots_upto (pd3_pt0 (snd s')) k t1 P0 n) N f st)
      as ([m' o'] & E & I1 & I2 & I3 & I4 & I5 & I6 & I7 & I8 & I9) end.
  - lia.
  - cbn [fst snd]. conjs; auto; [apply same_but_refl | now apply table_start | now apply table_start | apply slots_upto_0].
  - intros k [m2 o2] Hk (I1 & I2 & I3 & I4 & I5 & I6 & I7 & I8 & I9). cbn [fst snd] in *.
    assert (HkP : 0 <= k * P0 /\ k * P0 + P0 <= N * P0) by (apply mul_step; lia).
    assert (HPP : 0 <= P0 * P1) by (apply Z.mul_nonneg_nonneg; lia).
    assert (HkPP : 0 <= k * P0 * P1 /\ k * P0 * P1 + P0 * P1 <= N * P0 * P1) by (apply mul_step2; lia).
    assert (HkPPP : 0 <= k * P0 * P1 * P2 /\ k * P0 * P1 * P2 + P0 * P1 * P2 <= N * P0 * P1 * P2)
      by (apply mul_step2; lia).
    rewrite b_get, b_gets, I4, (umul_small k P0) by lia.
    rewrite (padd_blen _ _ (N * P0)) by (try (eapply table_blen; eassumption); lia).
    unfold set_pt0_3 at 1. unfold bind at 1. rewrite b_get. rewrite arr_set_ok by lia. rewrite b_ok.
    unfold upd_snd at 1. cbn [fst snd]. rewrite Z.add_0_l.
    set (o3 := mkPD3 _ _ _ _ _).
    assert (Ho3 : arr_get (pd3_pt0 o3) k = Ok (Ptr t1 (k * P0))).
    { apply arr_get_ok. cbn [o3 pd3_pt0]. rewrite znth_upd by lia. now rewrite Z.eqb_refl. }
    assert (Hp2 : pd3_pt2 o3 = Ptr t2 0) by exact I5.
    assert (Hp3 : pd3_data o3 = Ptr b 0) by exact I3.
    match goal with |- context [bind (for_uint 0 P0 ?f) _ ?st] =>
      destruct (for_uint_inv (fun c (s' : mem V * pd3) =>
        same_but [t1; t2] m (fst s') /\ snd s' = o3 /\
        table (fst s') t1 (N * P0) (k * P0 + c) t2 P1 n1 /\
        table (fst s') t2 (N * P0 * P1) ((k * P0 + c) * P1) b P2 n2) P0 f st)
        as ([m4 o4] & E & J1 & J2 & J3 & J4) end.
    + lia.
    + cbn [fst snd]. rewrite Z.add_0_r. auto.
    + intros c [m4 o4] Hc (J1 & J2 & J3 & J4). cbn [fst snd] in *. subst o4.
      assert (Hcw : 0 <= c * P1 /\ c * P1 + P1 <= P0 * P1) by (apply mul_step; lia).
      assert (Hcw2 : 0 <= c * P1 * P2 /\ c * P1 * P2 + P1 * P2 <= P0 * P1 * P2) by (apply mul_step2; lia).
      assert (Hd4 : blen m4 b (N * P0 * P1 * P2)) by (eapply blen_same; [|exact J1|exact H5]; assumption).
      rewrite b_get, b_gets, Hp2.
      rewrite (umul_small (k * P0)) by lia.
      rewrite (padd_blen _ _ (N * P0 * P1)) by (try (eapply table_blen; eassumption); lia).
      rewrite b_gets, (umul_small c P1) by lia.
      rewrite (padd_blen _ _ (N * P0 * P1)) by (try (eapply table_blen; eassumption); lia).
      rewrite b_gets, Ho3. cbn [rbind].
      rewrite (pidx_blen _ _ (N * P0)) by (try (eapply table_blen; eassumption); lia).
      destruct (table_store _ _ _ _ _ _ _ (Ptr t2 (0 + k * P0 * P1 + c * P1)) J3 ltac:(lia))
        as (m5 & S5 & Q1 & Q2 & Q3 & _).
      rewrite (b_store _ _ _ _ _ _ S5).
      assert (J1' : same_but [t1; t2] m m5).
      { eapply same_but_trans; [exact J1|]. eapply same_but_incl; [exact Hi1|exact Q1]. }
      assert (J4' : table m5 t2 (N * P0 * P1) ((k * P0 + c) * P1) b P2 n2) by (eapply table_same; eassumption).
      match goal with |- context [bind (for_uint 0 P1 ?f) _ ?st] =>
        destruct (for_uint_inv (fun d (s' : mem V * pd3) =>
          same_but [t1; t2] m (fst s') /\ snd s' = o3 /\
          table (fst s') t1 (N * P0) (k * P0 + c) t2 P1 n1 /\
          load_ptr (fst s') (Ptr t1 (k * P0 + c)) = Ok (Ptr t2 (0 + k * P0 * P1 + c * P1)) /\
          table (fst s') t2 (N * P0 * P1) ((k * P0 + c) * P1 + d) b P2 n2) P1 f st)
          as ([m7 o7] & E & K1 & K2 & K3 & K4 & K5) end.
      * lia.
      * cbn [fst snd]. rewrite Z.add_0_r. auto.
      * intros d [m7 o7] Hd (K1 & K2 & K3 & K4 & K5). cbn [fst snd] in *. subst o7.
        assert (Hdw : 0 <= d * P2 /\ d * P2 + P2 <= P1 * P2) by (apply mul_step; lia).
        assert (Hd7 : blen m7 b (N * P0 * P1 * P2)) by (eapply blen_same; [|exact K1|exact H5]; assumption).
        rewrite b_get, b_gets, Hp3.
        rewrite (umul_small (k * P0 * P1)) by lia.
        rewrite (padd_blen _ _ (N * P0 * P1 * P2)) by (auto; lia).
        rewrite b_gets, (umul_small (c * P1)) by lia.
        rewrite (padd_blen _ _ (N * P0 * P1 * P2)) by (auto; lia).
        rewrite b_gets, (umul_small d) by lia.
        rewrite (padd_blen _ _ (N * P0 * P1 * P2)) by (auto; lia).
        rewrite b_gets, ?Ho3. cbn [rbind].
        rewrite (pidx_blen _ _ (N * P0)) by (try (eapply table_blen; eassumption); lia). cbn [rbind].
        rewrite K4. cbn [rbind].
        rewrite (pidx_blen _ _ (N * P0 * P1)) by (try (eapply table_blen; eassumption); lia). cbn [rbind].
        replace (0 + k * P0 * P1 + c * P1 + d) with ((k * P0 + c) * P1 + d) by ring.
        destruct (table_store _ _ _ _ _ _ _ (Ptr b (0 + k * P0 * P1 * P2 + c * P1 * P2 + d * P2)) K5 ltac:(lia))
          as (m8 & S8 & R1 & R2 & R3 & _).
        rewrite (b_store _ _ _ _ _ _ S8). rewrite Hs2, b_ok.
        assert (K3' : table m8 t1 (N * P0) (k * P0 + c) t2 P1 n1) by (eapply table_same; eassumption).
        assert (K4' : load_ptr m8 (Ptr t1 (k * P0 + c)) = Ok (Ptr t2 (0 + k * P0 * P1 + c * P1))).
        { destruct R1 as (_ & _ & _ & R1). unfold load_ptr, load in *. rewrite R1 by assumption. exact K4. }
        rewrite b_gets, ?Ho3. cbn [rbind].
        rewrite (pidx_blen _ _ (N * P0)) by (try (eapply table_blen; eassumption); lia). cbn [rbind].
        rewrite K4'. cbn [rbind].
        rewrite (pidx_blen _ _ (N * P0 * P1)) by (try (eapply table_blen; eassumption); lia). cbn [rbind].
        replace (0 + k * P0 * P1 + c * P1 + d) with ((k * P0 + c) * P1 + d) by ring.
        rewrite b_gets, R3. cbn [rbind].
        assert (Hd8 : blen m8 b (N * P0 * P1 * P2)) by (eapply blen_same; [|exact R1|exact Hd7]; cbn; intuition).
        rewrite (padd_blen _ _ (N * P0 * P1 * P2)) by (auto; lia).
        destruct (table_store _ _ _ _ _ _ _ (Ptr b (0 + k * P0 * P1 * P2 + c * P1 * P2 + d * P2 + n2)) R2 ltac:(lia))
          as (m9 & S9 & T1 & T2 & T3 & T4).
        exists (m9, o3). split; [unfold on_fst; rewrite S9; reflexivity|]. cbn [fst snd].
        split; [|split; [reflexivity|split; [|split]]].
        -- eapply same_but_trans; [exact K1|]. eapply same_but_incl; [exact Hi2|].
           eapply same_but_trans; eassumption.
        -- eapply table_same; [|exact T1|exact K3']. assumption.
        -- destruct T1 as (_ & _ & _ & T1). unfold load_ptr, load in *. rewrite T1 by assumption. exact K4'.
        -- replace ((k * P0 + c) * P1 + (d + 1)) with ((k * P0 + c) * P1 + d + 1) by ring.
           apply T4. f_equal. ring.
      * cbn [fst snd] in *. subst o7. rewrite (bind_ret _ _ _ _ _ E). clear E.
        rewrite b_get, Hs1, b_ok, b_gets. try rewrite Ho3. cbn [rbind].
        rewrite (pidx_blen _ _ (N * P0)) by (try (eapply table_blen; eassumption); lia).
        rewrite b_gets, K4. cbn [rbind].
        rewrite (padd_blen _ _ (N * P0 * P1)) by (try (eapply table_blen; eassumption); lia).
        destruct (table_store _ _ _ _ _ _ _ (Ptr t2 (0 + k * P0 * P1 + c * P1 + n1)) K3 ltac:(lia))
          as (m9 & S9 & T1 & T2 & T3 & T4).
        exists (m9, o3). split; [unfold on_fst; rewrite S9; reflexivity|]. cbn [fst snd].
        split; [|split; [reflexivity|split]].
        -- eapply same_but_trans; [exact K1|]. eapply same_but_incl; [exact Hi1|exact T1].
        -- replace (k * P0 + (c + 1)) with (k * P0 + c + 1) by ring. apply T4. f_equal. ring.
        -- replace ((k * P0 + (c + 1)) * P1) with ((k * P0 + c) * P1 + P1) by ring.
           eapply table_same; [|exact T1|exact K5]. assumption.
    + cbn [fst snd] in *. subst o4. rewrite (bind_ret _ _ _ _ _ E). clear E.
      rewrite b_get, Hs0, b_ok, b_gets, Ho3. cbn [rbind].
      rewrite (padd_blen _ _ (N * P0)) by (try (eapply table_blen; eassumption); lia).
      unfold set_pt0_3. rewrite b_get.
      assert (HL3 : Z.of_nat (length (pd3_pt0 o3)) = N) by (cbn [o3 pd3_pt0]; now rewrite upd_length).
      rewrite arr_set_ok by lia. rewrite b_ok.
      unfold upd_snd. cbn [fst snd].
      eexists. split; [reflexivity|]. cbn [fst snd pd3_size pd3_data pd3_pt0 pd3_pt1 pd3_pt2].
      conjs; auto.
      * now rewrite upd_length.
      * replace ((k + 1) * P0) with (k * P0 + P0) by ring. assumption.
      * replace ((k + 1) * P0 * P1) with ((k * P0 + P0) * P1) by ring. assumption.
      * apply slots_upto_next; [|lia]. cbn [o3 pd3_pt0]. apply slots_upto_upd; [assumption|lia].
  - cbn [fst snd] in *. exists m', o'. split; [exact E|]. split; [assumption|].
    unfold liv3. cbn [fst snd slot_count]. rewrite <- E0, <- E1, <- E2.
    conjs; auto. replace (N * (P0 * P1 * P2)) with (N * P0 * P1 * P2) by ring.
    eapply blen_same; [|exact I1|exact H5]. assumption.
Qed.

Lemma alloc3_ok chk m o g0 g1 g2 :
  let P0 := slot_count g0 l0 in
  let P1 := slot_count g1 l1 in
  let P2 := slot_count g2 l2 in
  let '(n, i, p) := g0 in
  let '(n1, i1, p1) := g1 in
  let '(n2, i2, p2) := g2 in
  let call := alloc3 chk N l0 l1 l2 n i p n1 i1 p1 n2 i2 p2 (m, o) in
  let b := length (blocks m) in
  shape_ok g0 -> shape_ok g1 -> shape_ok g2 -> N * (P0 * P1 * P2) < UINT_MOD ->
  Z.of_nat (length (pd3_pt0 o)) = N ->
  pd3_data o = Null -> pd3_pt1 o = Null -> pd3_pt2 o = Null ->
  if (i =? 0) && negb (n + p =? 0) then call = Thr (m, o) (EInZero 0)
  else if (i1 =? 0) && negb (n1 + p1 =? 0) then call = Thr (m, o) (EInZero 1)
  else if (i2 =? 0) && negb (n2 + p2 =? 0) then call = Thr (m, o) (EInZero 2)
  else if P0 * P1 * P2 =? 0 then call = Ret (m, o) tt
  else if fails m (tick m) then call = Thr (mem_tick m, o) ENoMem
  else let m1 := mem_new m (N * (P0 * P1 * P2)) in
  if fails m (S (tick m)) then
    exists o', call = Thr (mem_tick m1, o') ENoMem /\ brk3 (mem_tick m1) o' g0 g1 g2 b None
  else let m2 := mem_new m1 (N * P0) in
  if fails m (S (S (tick m))) then
    exists o', call = Thr (mem_tick m2, o') ENoMem /\ brk3 (mem_tick m2) o' g0 g1 g2 b (Some (S b))
  else let m3 := mem_new m2 (N * P0 * P1) in
  exists m' o', call = Ret (m', o') tt /\ same_but [S b; S (S b)] m3 m' /\
                liv3 m' o' g0 g1 g2 b (S b) (S (S b)).
Proof.
  intros P0 P1 P2. destruct g0 as [[n i] p]. destruct g1 as [[n1 i1] p1]. destruct g2 as [[n2 i2] p2].
  intros call b Hg0 Hg1 Hg2 HP HL Hd Ht1 Ht2.
  pose proof (shape_ok_fits _ Hg0) as Hf0. pose proof (shape_ok_fits _ Hg1) as Hf1.
  pose proof (shape_ok_fits _ Hg2) as Hf2.
  pose proof (loc_val_range l0) as Hl0. pose proof (loc_val_range l1) as Hl1. pose proof (loc_val_range l2) as Hl2.
  assert (Hf : Forall dim_fits (shape3 (size3_of (n, i, p) (n1, i1, p1) (n2, i2, p2)))) by (apply Forall_three; assumption).
  pose proof (dim_facts3 chk _ 0 ltac:(lia) Hf) as F0.
  pose proof (dim_facts3 chk _ 1 ltac:(lia) Hf) as F1.
  pose proof (dim_facts3 chk _ 2 ltac:(lia) Hf) as F2.
  change (dimof3 _ 0) with (n, i, p) in F0. change (dimof3 _ 1) with (n1, i1, p1) in F1.
  change (dimof3 _ 2) with (n2, i2, p2) in F2.
  destruct F0 as (_ & _ & _ & F0). destruct (F0 RALL) as (_ & _ & Z0 & _). clear F0.
  destruct F1 as (_ & _ & _ & F1). destruct (F1 RALL) as (_ & _ & Z1 & _). clear F1.
  destruct F2 as (_ & _ & _ & F2). destruct (F2 RALL) as (_ & _ & Z2 & _). clear F2.
  cbn [region fst snd] in Z0, Z1, Z2.
  pose proof Hg0 as G0. pose proof Hg1 as G1. pose proof Hg2 as G2. unfold shape_ok in G0, G1, G2.
  assert (E0 : P0 = n + i + p + loc_val l0) by reflexivity.
  assert (E1 : P1 = n1 + i1 + p1 + loc_val l1) by reflexivity.
  assert (E2 : P2 = n2 + i2 + p2 + loc_val l2) by reflexivity.
  assert (U0 : uadd (i + p - - n) (loc_val l0) = P0) by (rewrite uadd_small; lia).
  assert (U1 : uadd (i1 + p1 - - n1) (loc_val l1) = P1) by (rewrite uadd_small; lia).
  assert (U2 : uadd (i2 + p2 - - n2) (loc_val l2) = P2) by (rewrite uadd_small; lia).
  assert (HPP : 0 <= P0 * P1) by (apply Z.mul_nonneg_nonneg; lia).
  assert (HPPP : 0 <= P0 * P1 * P2) by (apply Z.mul_nonneg_nonneg; lia).
  assert (HPN : P0 * P1 * P2 <= N * (P0 * P1 * P2)) by nia.
  assert (U4 : umul (umul P0 P1) P2 = P0 * P1 * P2).
  { destruct (Z.eq_dec P2 0) as [E|E].
    - unfold umul at 1. rewrite E, !Z.mul_0_r. reflexivity.
    - assert (P0 * P1 <= P0 * P1 * P2) by nia.
      rewrite (umul_small P0 P1) by lia. apply umul_small. lia. }
  set (s := size3_of (n, i, p) (n1, i1, p1) (n2, i2, p2)) in *.
  assert (Ez : call =
    if (i =? 0) && negb (n + p =? 0) then Thr (m, o) (EInZero 0)
    else if (i1 =? 0) && negb (n1 + p1 =? 0) then Thr (m, o) (EInZero 1)
    else if (i2 =? 0) && negb (n2 + p2 =? 0) then Thr (m, o) (EInZero 2)
    else if P0 * P1 * P2 =? 0 then Ret (m, o) tt
    else catch_bad_alloc (
      do* d := on_fst (hnew (umul (P0 * P1 * P2) N)) in
      set_data3 d ;;;
      set_size3 s ;;;
      do* t := on_fst (hnew (umul N P0)) in
      set_pt1_3 t ;;;
      do* t2 := on_fst (hnew (umul (umul N P0) P1)) in
      set_pt2_3 t2 ;;;
      fill3 chk s P0 P1 P2)
      (throw ENoMem) (m, o)).
  { unfold call, alloc3. rewrite b_get. rewrite Hd. cbn [is_null negb].
    rewrite mk_sizeT3_fits by assumption. change (mkSize3 _ _ _) with s.
    unfold scheck3. cbn [s size3_of s3_in s3_n s3_p c0 c1 c2].
    rewrite !scheck_dim_eq by assumption.
    destruct ((i =? 0) && _); [reflexivity|]. cbn [rbind].
    destruct ((i1 =? 0) && _); [reflexivity|]. cbn [rbind].
    destruct ((i2 =? 0) && _); [reflexivity|]. rewrite b_ok.
    unfold s in Z0, Z1, Z2. cbn [size3_of] in Z0, Z1, Z2.
    rewrite Z0, b_ok, Z1, b_ok, Z2, b_ok, U0, U1, U2, U4. destruct (P0 * P1 * P2 =? 0); reflexivity. }
  rewrite Ez. clear Ez.
  destruct ((i =? 0) && _); [reflexivity|]. destruct ((i1 =? 0) && _); [reflexivity|].
  destruct ((i2 =? 0) && _); [reflexivity|].
  destruct (P0 * P1 * P2 =? 0) eqn:EP; [reflexivity|]. zcmp.
  assert (HP0 : 1 <= P0) by nia. assert (HP1 : 1 <= P1) by nia. assert (HP2 : 1 <= P2) by nia.
  unfold catch_bad_alloc. rewrite b_fst, hnew_eq.
  destruct (fails m (tick m)); [reflexivity|].
  rewrite (umul_small (P0 * P1 * P2) N) by nia. rewrite (Z.mul_comm (P0 * P1 * P2) N).
  cbv zeta. set (m1 := mem_new m (N * (P0 * P1 * P2))). fold b.
  assert (Hb : blen m1 b (N * (P0 * P1 * P2))) by (apply blen_new; nia).
  unfold set_data3, set_size3. rewrite !b_upd. cbn [pd3_data pd3_size pd3_pt0 pd3_pt1 pd3_pt2].
  rewrite b_fst, hnew_eq. change (fails m1 (tick m1)) with (fails m (S (tick m))).
  destruct (fails m (S (tick m))).
  - eexists. split; [reflexivity|]. unfold brk3. cbn [pd3_data pd3_size pd3_pt0 pd3_pt1 pd3_pt2].
    rewrite Ht1, Ht2. conjs; auto. rewrite block_tick. destruct Hb as (cs & -> & _). discriminate.
  - set (m2 := mem_new m1 (N * P0)).
    replace (N * (P0 * P1 * P2)) with (N * P0 * P1 * P2) in * by ring.
    assert (HA : 1 <= N * P0) by nia.
    assert (HB : 1 <= N * P0 * P1) by nia.
    assert (HAB : N * P0 <= N * P0 * P1) by nia.
    assert (HBC : N * P0 * P1 <= N * P0 * P1 * P2) by nia.
    rewrite (umul_small N P0) by lia. fold m2.
    unfold set_pt1_3. rewrite b_upd. cbn [pd3_data pd3_size pd3_pt0 pd3_pt1 pd3_pt2].
    assert (Eb1 : length (blocks m1) = S b) by apply blocks_new. rewrite Eb1.
    assert (Eb2 : length (blocks m2) = S (S b)) by (unfold m2; rewrite blocks_new; congruence).
    assert (Hb2 : blen m2 b (N * P0 * P1 * P2)) by (apply blen_new_old; assumption).
    assert (Ht3 : blen m2 (S b) (N * P0)) by (unfold m2; rewrite <- Eb1; apply blen_new; lia).
    rewrite b_fst, hnew_eq. change (fails m2 (tick m2)) with (fails m (S (S (tick m)))).
    destruct (fails m (S (S (tick m)))).
    + eexists. split; [reflexivity|]. unfold brk3. cbn [pd3_data pd3_size pd3_pt0 pd3_pt1 pd3_pt2].
      rewrite Ht2. conjs; auto; rewrite ?block_tick.
      * destruct Hb2 as (cs & -> & _). discriminate.
      * destruct Ht3 as (cs & -> & _). discriminate.
    + set (m3 := mem_new m2 (N * P0 * P1)).
      rewrite umul_small by lia. fold m3.
      unfold set_pt2_3. rewrite b_upd. cbn [pd3_data pd3_size pd3_pt0 pd3_pt1 pd3_pt2].
      rewrite Eb2.
      match goal with |- context [fill3 _ _ _ _ _ (_, ?x)] =>
        destruct (fill3_ok chk (n, i, p) (n1, i1, p1) (n2, i2, p2) m3 x b (S b) (S (S b)))
          as (m' & o' & E & Q1 & Q2) end; auto; try (clear; lia).
      * change (slot_count (n, i, p) l0) with P0. change (slot_count (n1, i1, p1) l1) with P1.
        change (slot_count (n2, i2, p2) l2) with P2.
        replace (N * (P0 * P1 * P2)) with (N * P0 * P1 * P2) by ring. assumption.
      * change (slot_count (n, i, p) l0) with P0. change (slot_count (n1, i1, p1) l1) with P1.
        change (slot_count (n2, i2, p2) l2) with P2.
        replace (N * (P0 * P1 * P2)) with (N * P0 * P1 * P2) by ring.
        apply blen_new_old. assumption.
      * apply blen_new_old. assumption.
      * unfold m3. rewrite <- Eb2. apply blen_new. change (0 <= N * P0 * P1). lia.
      * exists m', o'. change (slot_count (n, i, p) l0) with P0 in E. change (slot_count (n1, i1, p1) l1) with P1 in E.
        change (slot_count (n2, i2, p2) l2) with P2 in E. fold s in E. rewrite E. auto.
Qed.

Lemma clear3_ok m o g0 g1 g2 b t1 t2 :
  liv3 m o g0 g1 g2 b t1 t2 ->
  exists o', clear3 (m, o) = Ret (set_block (set_block (set_block m b None) t1 None) t2 None, o') tt /\ emp3 o'.
Proof.
  intros (H1 & H2 & H3 & H4 & H5 & X1 & X2 & X3 & (cs & H6 & _) & (ct & H7 & _) & (cu & H8 & _) & _).
  unfold clear3. rewrite b_get, H2. cbn [is_null].
  rewrite b_fst, (hdelete_ok _ _ _ H6).
  unfold set_data3. rewrite b_upd, b_fst. rewrite H3.
  rewrite (hdelete_ok _ _ ct) by (rewrite block_set_ne; assumption).
  unfold set_pt1_3. rewrite b_upd, b_fst. rewrite H4.
  rewrite (hdelete_ok _ _ cu) by (rewrite !block_set_ne; assumption).
  unfold set_pt2_3. rewrite b_upd. unfold set_size3, upd_snd. cbn [fst snd].
  eexists. split; [reflexivity|]. repeat split; auto.
Qed.

Lemma clear3_brk m o g0 g1 g2 b t :
  brk3 m o g0 g1 g2 b t ->
  exists o', clear3 (m, o) =
    Ret (match t with Some t => set_block (set_block m b None) t None | None => set_block m b None end, o') tt /\ emp3 o'.
Proof.
  intros (H1 & H2 & H3 & H4 & H5 & H6 & H7).
  destruct (block m b) as [cs|] eqn:Hb; [|congruence].
  unfold clear3. rewrite b_get, H2. cbn [is_null].
  rewrite b_fst, (hdelete_ok _ _ _ Hb).
  unfold set_data3. rewrite b_upd, b_fst. rewrite H3. destruct t as [t|].
  - destruct H7 as [H7 H8]. destruct (block m t) as [ct|] eqn:Ht; [|congruence].
    rewrite (hdelete_ok _ _ ct) by (rewrite block_set_ne; assumption).
    unfold set_pt1_3. rewrite b_upd, b_fst, H4. cbn [hdelete].
    unfold set_pt2_3. rewrite b_upd. unfold set_size3, upd_snd. cbn [fst snd].
    eexists. split; [reflexivity|]. repeat split; auto.
  - cbn [hdelete]. unfold set_pt1_3. rewrite b_upd, b_fst, H4. cbn [hdelete].
    unfold set_pt2_3. rewrite b_upd. unfold set_size3, upd_snd. cbn [fst snd].
    eexists. split; [reflexivity|]. repeat split; auto.
Qed.

Lemma lval3_ok m o g0 g1 g2 b t1 t2 k x y z :
  liv3 m o g0 g1 g2 b t1 t2 -> 0 <= k < N ->
  fst (slots g0 l0) <= x < snd (slots g0 l0) -> fst (slots g1 l1) <= y < snd (slots g1 l1) ->
  fst (slots g2 l2) <= z < snd (slots g2 l2) ->
  lval3 m o k x y z = Ok (Ptr b (lin [slots g0 l0; slots g1 l1; slots g2 l2] k [x; y; z])).
Proof.
  destruct g0 as [[n i] p]. destruct g1 as [[n1 i1] p1]. destruct g2 as [[n2 i2] p2].
  intros (H1 & H2 & H3 & H3' & H4 & X1 & X2 & X3 & H6 & H7 & H7' & H8) Hk Hx Hy Hz.
  unfold lval3. rewrite (arr_get_ok _ _ _ (H8 k Hk)). cbn [rbind].
  unfold slots in *. cbn [fst snd lin slot_count] in *.
  set (P0 := n + i + p + loc_val l0) in *. set (P1 := n1 + i1 + p1 + loc_val l1) in *.
  set (P2 := n2 + i2 + p2 + loc_val l2) in *.
  replace (i + p + loc_val l0 - - n) with P0 by lia. replace (i1 + p1 + loc_val l1 - - n1) with P1 by lia.
  replace (i2 + p2 + loc_val l2 - - n2) with P2 by lia.
  assert (Y0 : 0 <= n + x < P0) by lia. assert (Y1 : 0 <= n1 + y < P1) by lia. assert (Y2 : 0 <= n2 + z < P2) by lia.
  clearbody P0 P1 P2.
  assert (A : 0 <= k * P0 /\ k * P0 + P0 <= N * P0) by (apply mul_step; lia).
  rewrite (pidx_blen _ _ _ _ _ (table_blen _ _ _ _ _ _ _ H7)) by lia. cbn [rbind].
  rewrite (table_load _ _ _ _ _ _ _ _ H7) by lia. cbn [rbind].
  assert (B : 0 <= (k * P0 + n + x) * P1 /\ (k * P0 + n + x) * P1 + P1 <= N * P0 * P1) by (apply mul_step; lia).
  rewrite (pidx_blen _ _ _ _ _ (table_blen _ _ _ _ _ _ _ H7')) by lia. cbn [rbind].
  rewrite (table_load _ _ _ _ _ _ _ _ H7') by lia. cbn [rbind].
  set (u := (k * P0 + n + x) * P1 + n1 + y) in *.
  assert (C : 0 <= u * P2 /\ u * P2 + P2 <= N * P0 * P1 * P2) by (apply mul_step; unfold u; lia).
  rewrite (pidx_blen _ _ _ _ _ H6) by lia. do 2 f_equal. unfold u. ring.
Qed.

Lemma data_pt3_ok chk m o g0 g1 g2 b t1 t2 k :
  shape_ok g0 -> shape_ok g1 -> shape_ok g2 -> 1 <= slot_count g0 l0 -> 1 <= slot_count g1 l1 ->
  liv3 m o g0 g1 g2 b t1 t2 -> 0 <= k < N ->
  data_pt3 chk N m o k = Ok (Ptr b (k * vol [slots g0 l0; slots g1 l1; slots g2 l2])).
Proof.
  intros Hg0 Hg1 Hg2 HP0 HP1. destruct g0 as [[n i] p]. destruct g1 as [[n1 i1] p1]. destruct g2 as [[n2 i2] p2].
  intros (H1 & H2 & H3 & H3' & H4 & X1 & X2 & X3 & H6 & H7 & H7' & H8) Hk. unfold shape_ok in Hg0, Hg1, Hg2.
  pose proof (loc_val_range l0). pose proof (loc_val_range l1). pose proof (loc_val_range l2).
  unfold data_pt3. assert (E : check_n chk N k = Ok tt).
  { unfold check_n. replace (k >=? N) with false by (symmetry; rewrite Z.geb_leb; apply Z.leb_gt; lia). now destruct chk. }
  rewrite E. cbn [rbind]. rewrite (arr_get_ok _ _ _ (H8 k Hk)). rewrite H1, sn3_0, sn3_1, sn3_2.
  cbn [s3_n size3_of c0 c1 c2 rbind].
  cbn [slot_count fst snd] in *.
  set (P0 := n + i + p + loc_val l0) in *. set (P1 := n1 + i1 + p1 + loc_val l1) in *.
  set (P2 := n2 + i2 + p2 + loc_val l2) in *.
  assert (EV : vol [slots (n, i, p) l0; slots (n1, i1, p1) l1; slots (n2, i2, p2) l2] = P0 * P1 * P2).
  { unfold vol, slots; cbn [map fst snd zprod fold_right].
    replace (i + p + loc_val l0 - - n) with P0 by lia. replace (i1 + p1 + loc_val l1 - - n1) with P1 by lia.
    replace (i2 + p2 + loc_val l2 - - n2) with P2 by lia. ring. }
  rewrite EV. clear EV.
  assert (Y2 : 0 <= P2) by lia.
  clearbody P0 P1 P2.
  assert (A : 0 <= k * P0 /\ k * P0 + P0 <= N * P0) by (apply mul_step; lia).
  arith. rewrite (pidx_blen _ _ _ _ _ (table_blen _ _ _ _ _ _ _ H7)) by lia. cbn [rbind].
  rewrite (table_load _ _ _ _ _ _ _ _ H7) by lia. cbn [rbind]. arith.
  replace (k * P0 + n + - n) with (k * P0) by lia.
  assert (B : 0 <= k * P0 * P1 /\ k * P0 * P1 + P1 <= N * P0 * P1) by (apply mul_step; lia).
  rewrite (pidx_blen _ _ _ _ _ (table_blen _ _ _ _ _ _ _ H7')) by lia. cbn [rbind].
  rewrite (table_load _ _ _ _ _ _ _ _ H7') by lia. cbn [rbind]. arith.
  replace (k * P0 * P1 + n1 + - n1) with (k * P0 * P1) by lia.
  assert (C : 0 <= k * P0 * P1 * P2 /\ k * P0 * P1 * P2 + P2 <= N * P0 * P1 * P2) by (apply mul_step; lia).
  rewrite (padd_blen _ _ _ _ _ H6) by lia. do 2 f_equal. ring.
Qed.

End PD3.
