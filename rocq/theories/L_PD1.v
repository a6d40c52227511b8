(** Representation of one-dimensional arrays. *)

From Coq Require Import ZArith List Bool Lia.
From Verif Require Import Base M_Flags M_Loop M_RS1 M_Heap M_PD1 Spec Spec_Loop Spec_Array
  L_Base L_RS L_Range L_Loop L_Heap L_Lin L_Rep.
Import ListNotations.
Open Scope Z_scope.

Section PD1.
Context {V : Type}.
Implicit Types m : mem V.
Variable N : Z.
Variable l0 : loc.
Hypothesis HN : 1 <= N <= INT_MAX.

Definition emp1 (o : pd1) : Prop :=
  pd1_size o = size0_1 /\ pd1_data o = Null /\ Z.of_nat (length (pd1_pt0 o)) = N.

Definition liv1 m (o : pd1) (g : dim_shape) (b : nat) : Prop :=
  let '(n, i, p) := g in
  let P := slot_count g l0 in
  pd1_size o = mkSize1 i n p /\ pd1_data o = Ptr b 0 /\ Z.of_nat (length (pd1_pt0 o)) = N /\
  blen m b (N * P) /\ slots_upto (pd1_pt0 o) N b P n.

Lemma shape_ok_fits g : shape_ok g -> dim_fits g.
Proof. destruct g as [[n i] p]. unfold shape_ok, dim_fits. lia. Qed.

Lemma nulls1 m o :
  Z.of_nat (length (pd1_pt0 o)) = N ->
  exists o', for_uint 0 N (fun n => @set_pt0_1 V n Null) (m, o) = Ret (m, o') tt /\
    pd1_size o' = pd1_size o /\ pd1_data o' = pd1_data o /\ Z.of_nat (length (pd1_pt0 o')) = N /\
    forall k, 0 <= k < N -> znth (pd1_pt0 o') k = Some Null.
Proof.
  intros HL.
  destruct (for_uint_inv (fun k (s : mem V * pd1) =>
    fst s = m /\ pd1_size (snd s) = pd1_size o /\ pd1_data (snd s) = pd1_data o /\
    Z.of_nat (length (pd1_pt0 (snd s))) = N /\
    forall j, 0 <= j < k -> znth (pd1_pt0 (snd s)) j = Some Null) N
    (fun n => @set_pt0_1 V n Null) (m, o)) as ([m' o'] & E & I1 & I2 & I3 & I4 & I5).
  - lia.
  - repeat split; auto. intros; lia.
  - intros k [m1 o1] Hk (I1 & I2 & I3 & I4 & I5). cbn [fst snd] in *. subst m1.
    unfold set_pt0_1. mon. rewrite arr_set_ok by lia.
    eexists. split; [reflexivity|]. cbn [fst snd pd1_size pd1_data pd1_pt0].
    repeat split; auto; [now rewrite upd_length|].
    intros j Hj. rewrite znth_upd by lia. destruct (j =? k) eqn:Ej; zcmp; auto. apply I5. lia.
  - cbn [fst snd] in *. subst m'. exists o'. auto.
Qed.

Lemma ctor1_ok m :
  exists o, ctor1 (V := V) N (m, blank1 N) = Ret (m, o) tt /\ emp1 o /\
            forall k, 0 <= k < N -> znth (pd1_pt0 o) k = Some Null.
Proof.
  unfold ctor1. replace (N =? 0) with false by (symmetry; apply Z.eqb_neq; lia).
  destruct (nulls1 m (blank1 N)) as (o & E & H1 & H2 & H3 & H4).
  { cbn [blank1 pd1_pt0]. rewrite repeat_length. lia. }
  exists o. split; [exact E|]. split; [|exact H4]. repeat split; auto.
Qed.

Lemma scheck1_eq n i p : shape_ok (n, i, p) ->
  scheck1 (mkSize1 i n p) = if (i =? 0) && negb (n + p =? 0) then Err (EInZero 0) else Ok tt.
Proof.
  intros H. unfold shape_ok in H. unfold scheck1. cbn [s1_in s1_n s1_p].
  destruct (i =? 0); cbn [andb]; [|reflexivity]. arith. cbn [rbind]. reflexivity.
Qed.

Lemma alloc1_ok chk m o n i p :
  let g := (n, i, p) in
  let P := slot_count g l0 in
  shape_ok g -> N * P < UINT_MOD -> Z.of_nat (length (pd1_pt0 o)) = N ->
  pd1_data o = Null ->
  if (i =? 0) && negb (n + p =? 0) then alloc1 chk N l0 n i p (m, o) = Thr (m, o) (EInZero 0)
  else if P =? 0 then alloc1 chk N l0 n i p (m, o) = Ret (m, o) tt
  else if fails m (tick m) then alloc1 chk N l0 n i p (m, o) = Thr (mem_tick m, o) ENoMem
  else exists o', alloc1 chk N l0 n i p (m, o) = Ret (mem_new m (N * P), o') tt /\
                  liv1 (mem_new m (N * P)) o' g (length (blocks m)).
Proof.
  intros g P Hg HP HL Hd.
  pose proof (shape_ok_fits _ Hg) as Hf. pose proof (loc_val_range l0) as Hl.
  destruct (dim_facts1 chk n i p Hf) as (_ & _ & _ & F). destruct (F RALL) as (_ & _ & F3 & _).
  pose proof Hg as Hg'. unfold g, shape_ok in Hg'.
  cbn [region fst snd] in F3.
  assert (HP0 : P = n + i + p + loc_val l0) by reflexivity.
  assert (Eu : uadd (i + p - - n) (loc_val l0) = P) by (rewrite uadd_small; lia).
  assert (Ez : alloc1 (V := V) chk N l0 n i p (m, o) =
    if (i =? 0) && negb (n + p =? 0) then Thr (m, o) (EInZero 0)
    else if P =? 0 then Ret (m, o) tt
    else catch_bad_alloc (
      do* d := on_fst (hnew (umul P N)) in
      set_data1 d ;;;
      set_size1 (mkSize1 i n p) ;;;
      for_uint 0 N (fun k =>
        do* o := get_snd in
        do* q := on_fst (gets (fun m => padd m (pd1_data o) (umul k P))) in
        do* nn := lift (sn1 chk (mkSize1 i n p) 0) in
        do* q' := on_fst (gets (fun m => padd m q nn)) in
        set_pt0_1 k q'))
      (throw ENoMem) (m, o)).
  { unfold alloc1. unfold bind at 1. unfold get_snd at 1. cbn [snd]. rewrite Hd. cbn [is_null negb].
    rewrite mk_sizeT1_fits by exact Hf. rewrite scheck1_eq by exact Hg.
    destruct (_ && _); [reflexivity|].
    unfold bind at 1. cbn [lift]. rewrite F3. unfold bind at 1. cbn [lift]. rewrite Eu.
    destruct (P =? 0); reflexivity. }
  rewrite Ez. clear Ez.
  destruct (_ && _); [reflexivity|]. destruct (P =? 0) eqn:EP; [reflexivity|]. zcmp.
  unfold catch_bad_alloc. rewrite b_fst, hnew_eq.
  destruct (fails m (tick m)); [reflexivity|].
  rewrite umul_small by lia. rewrite (Z.mul_comm P N).
  set (m1 := mem_new m (N * P)). set (b := length (blocks m)).
  assert (Hb : blen m1 b (N * P)) by (apply blen_new; lia).
  unfold set_data1, set_size1. rewrite !b_upd. cbn [pd1_data pd1_size pd1_pt0].
  match goal with |- context [for_uint 0 N ?f ?st] =>
    destruct (for_uint_inv (fun k (s : mem V * pd1) =>
      fst s = m1 /\ pd1_size (snd s) = mkSize1 i n p /\ pd1_data (snd s) = Ptr b 0 /\
      Z.of_nat (length (pd1_pt0 (snd s))) = N /\ slots_upto (pd1_pt0 (snd s)) k b P n) N f st)
      as ([m' o'] & E & I1 & I2 & I3 & I4 & I5) end.
  - lia.
  - cbn [fst snd pd1_size pd1_data pd1_pt0]. repeat split; auto. intros ? ?; lia.
  - intros k [m2 o2] Hk (I1 & I2 & I3 & I4 & I5). cbn [fst snd] in *. subst m2.
    assert (HkP : 0 <= k * P /\ k * P + P <= N * P) by nia.
    rewrite b_get, b_gets, I3. rewrite umul_small by nia.
    rewrite (padd_blen _ _ (N * P)) by (auto; lia). rewrite sn1_0, b_ok. cbn [s1_n].
    rewrite b_gets, (padd_blen _ _ (N * P)) by (auto; lia).
    unfold set_pt0_1. mon. rewrite arr_set_ok by lia.
    eexists. split; [reflexivity|]. cbn [fst snd pd1_size pd1_data pd1_pt0].
    repeat split; auto; [now rewrite upd_length|].
    intros j Hj. rewrite znth_upd by lia. destruct (j =? k) eqn:Ej; zcmp; [subst; do 2 f_equal; lia|].
    apply I5. lia.
  - cbn [fst snd] in *. subst m'. rewrite E. exists o'. split; [reflexivity|].
    unfold liv1, g. fold g P. auto.
Qed.

Lemma clear1_ok m o g b :
  liv1 m o g b ->
  exists o', clear1 N (m, o) = Ret (set_block m b None, o') tt /\ emp1 o' /\
             forall k, 0 <= k < N -> znth (pd1_pt0 o') k = Some Null.
Proof.
  destruct g as [[n i] p]. intros (H1 & H2 & H3 & (cs & Hb & HL) & H5).
  unfold clear1. unfold bind at 1. unfold get_snd. cbn [snd]. rewrite H2. cbn [is_null].
  unfold bind at 1. unfold on_fst. rewrite (hdelete_ok _ _ _ Hb).
  unfold bind at 1. unfold set_data1, upd_snd. cbn [fst snd].
  unfold bind at 1.
  destruct (nulls1 (set_block m b None) (mkPD1 (pd1_size o) Null (pd1_pt0 o))) as (o' & E & E1 & E2 & E3 & E4); [exact H3|].
  rewrite E. unfold set_size1, upd_snd. cbn [fst snd].
  eexists. split; [reflexivity|]. split; [|exact E4]. repeat split; auto.
Qed.

Lemma lval1_ok m o g b k x :
  liv1 m o g b -> 0 <= k < N -> fst (slots g l0) <= x < snd (slots g l0) ->
  lval1 m o k x = Ok (Ptr b (lin [slots g l0] k [x])).
Proof.
  destruct g as [[n i] p]. intros (H1 & H2 & H3 & H4 & H5) Hk Hx.
  unfold lval1. rewrite (arr_get_ok _ _ _ (H5 k Hk)). cbn [rbind].
  unfold slots in *. cbn [fst snd lin slot_count] in *.
  rewrite (pidx_blen _ _ _ _ _ H4) by nia. do 2 f_equal. lia.
Qed.

Lemma data_pt1_ok chk m o g b k :
  shape_ok g ->
  liv1 m o g b -> 0 <= k < N -> data_pt1 chk N m o k = Ok (Ptr b (k * vol [slots g l0])).
Proof.
  intros Hg. destruct g as [[n i] p]. intros (H1 & H2 & H3 & H4 & H5) Hk. unfold shape_ok in Hg.
  pose proof (loc_val_range l0).
  unfold data_pt1, check_n. replace (k >=? N) with false by (symmetry; rewrite Z.geb_leb; apply Z.leb_gt; lia).
  rewrite (arr_get_ok _ _ _ (H5 k Hk)). rewrite H1, sn1_0. cbn [s1_n].
  cbn [slot_count] in *.
  assert (E : padd m (Ptr b (k * (n + i + p + loc_val l0) + n)) (- n) = Ok (Ptr b (k * vol [slots (n, i, p) l0]))).
  { rewrite (padd_blen _ _ _ _ _ H4) by nia. do 2 f_equal. unfold vol, slots; cbn [map fst snd zprod fold_right]. lia. }
  destruct chk; cbn [rbind]; arith; exact E.
Qed.

End PD1.
