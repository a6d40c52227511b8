(** Proofs for the properties of ranges and shapes (C01 - C08). *)

From Coq Require Import ZArith List Bool Lia.
From Verif Require Import Base M_Flags M_Loop M_RS1 M_RS2 M_RS3 Spec L_Base L_RS.
Import ListNotations.
Open Scope Z_scope.

(** ** in_box for one, two, three dimensions *)

Lemma in_box_1 f q : in_box [f] q <-> exists x, q = [x] /\ fst f <= x < snd f.
Proof.
  split.
  - intros H. inversion H as [|? x ? ? Hx Hr]; subst. inversion Hr; subst. eauto.
  - intros (x & -> & H). constructor; [assumption|constructor].
Qed.

Lemma in_box_cons f B q :
  in_box (f :: B) q <-> exists x q', q = x :: q' /\ fst f <= x < snd f /\ in_box B q'.
Proof.
  split.
  - intros H. inversion H as [|? x ? q' Hx Hr]; subst. exists x, q'. auto.
  - intros (x & q' & -> & H & H'). constructor; assumption.
Qed.

Lemma in_box_nil q : in_box [] q <-> q = [].
Proof. split; [now inversion 1 | intros ->; constructor]. Qed.

(** ** C01 *)

Lemma part_unique g x :
  dim_fits g ->
  (fst (region g RALL) <= x < snd (region g RALL) <->
   exists! t, part t /\ fst (region g t) <= x < snd (region g t)).
Proof.
  destruct g as [[n i] p]. unfold dim_fits. intros H. cbn [region fst snd]. split.
  - intros Hx.
    destruct (Z_lt_le_dec x 0) as [H0|H0]; [|destruct (Z_lt_le_dec x i) as [H1|H1]].
    + exists RN. split.
      * cbn [fst snd]. split; [unfold part; auto | lia].
      * intros t [Pt Ht]. unfold part in Pt. destruct t; cbn [fst snd] in Ht; try reflexivity; try lia.
        now destruct Pt as [|[|]].
    + exists RIN. split.
      * cbn [fst snd]. split; [unfold part; auto | lia].
      * intros t [Pt Ht]. unfold part in Pt. destruct t; cbn [fst snd] in Ht; try reflexivity; try lia.
        now destruct Pt as [|[|]].
    + exists RP. split.
      * cbn [fst snd]. split; [unfold part; auto | lia].
      * intros t [Pt Ht]. unfold part in Pt. destruct t; cbn [fst snd] in Ht; try reflexivity; try lia.
        now destruct Pt as [|[|]].
  - intros [t [[Pt Ht] _]]. unfold part in Pt. destruct t; cbn [fst snd] in Ht; try lia.
Qed.

Lemma regions_D1 chk n i p :
  dim_fits (n, i, p) ->
  let s := mk_sizeT1 n i p in
  (forall t fl,
     sbegin1 chk s 0 t = Ok (fst (region (n, i, p) t)) /\
     send1 chk s 0 t = Ok (snd (region (n, i, p) t)) /\
     slast1 chk s 0 t = Ok (snd (region (n, i, p) t) - 1) /\
     sbound1 chk s 0 t fl = Ok (edge (region (n, i, p) t) fl)) /\
  ssize1 chk s 0 RN = Ok n /\ ssize1 chk s 0 RIN = Ok i /\
  ssize1 chk s 0 RP = Ok p /\ ssize1 chk s 0 RALL = Ok (n + i + p) /\
  (forall t, exists r, srange1 chk s t = Ok r /\ faces1 r = [region (n, i, p) t]) /\
  (exists R, srange1 chk s RALL = Ok R /\
     forall q, in_box (faces1 R) q <->
       exists! t, part t /\ exists r, srange1 chk s t = Ok r /\ in_box (faces1 r) q).
Proof.
  intros H s. unfold s. rewrite mk_sizeT1_fits by assumption.
  pose proof (dim_facts1 chk n i p H) as (Fi & Fn & Fp & F). cbn zeta in F.
  assert (R : forall t, exists r, srange1 chk (mkSize1 i n p) t = Ok r /\
                                  faces1 r = [region (n, i, p) t]).
  { intros t. rewrite srange1_eq by assumption. eexists. split; [reflexivity|].
    unfold faces1. cbn [r1_begin r1_size]. rewrite Zplus_minus.
    now destruct (region (n, i, p) t). }
  split; [|split; [|split; [|split; [|split; [|split; [exact R|]]]]]].
  - intros t fl. destruct (F t) as (A & B & C & D & E). auto.
  - destruct (F RN) as (_ & _ & C & _). rewrite C. cbn [region fst snd]. f_equal. lia.
  - destruct (F RIN) as (_ & _ & C & _). rewrite C. cbn [region fst snd]. f_equal. lia.
  - destruct (F RP) as (_ & _ & C & _). rewrite C. cbn [region fst snd]. f_equal. lia.
  - destruct (F RALL) as (_ & _ & C & _). rewrite C. cbn [region fst snd]. f_equal. lia.
  - destruct (R RALL) as (Ra & HR & FR). exists Ra. split; [assumption|].
    intros q. rewrite FR, in_box_1. split.
    + intros (x & -> & Hx). apply (part_unique _ _ H) in Hx.
      destruct Hx as (t & [Pt Ht] & U). exists t. split.
      * split; [assumption|]. destruct (R t) as (r & Hr & Fr). exists r. split; [assumption|].
        rewrite Fr, in_box_1. eauto.
      * intros t' [Pt' (r' & Hr' & Br')]. apply U. split; [assumption|].
        destruct (R t') as (r & Hr & Fr). rewrite Hr in Hr'. injection Hr' as <-.
        rewrite Fr, in_box_1 in Br'. destruct Br' as (x' & [= <-] & Hx'). assumption.
    + intros (t & [Pt (r & Hr & Br)] & _).
      destruct (R t) as (r' & Hr' & Fr'). rewrite Hr in Hr'. injection Hr' as <-.
      rewrite Fr', in_box_1 in Br. destruct Br as (x & -> & Hx). exists x. split; [reflexivity|].
      destruct t; cbn [region fst snd] in *; unfold dim_fits in H; lia.
Qed.

Lemma region_in_all g t x :
  dim_fits g -> fst (region g t) <= x < snd (region g t) ->
  fst (region g RALL) <= x < snd (region g RALL).
Proof.
  destruct g as [[n i] p]. unfold dim_fits. destruct t; cbn [region fst snd]; lia.
Qed.

Lemma in_box_2 f0 f1 q :
  in_box [f0; f1] q <-> exists x y, q = [x; y] /\ fst f0 <= x < snd f0 /\ fst f1 <= y < snd f1.
Proof.
  rewrite in_box_cons. split.
  - intros (x & q' & -> & H & H'). apply in_box_1 in H'. destruct H' as (y & -> & H').
    exists x, y. auto.
  - intros (x & y & -> & H & H'). exists x, [y]. split; [reflexivity|]. split; [assumption|].
    apply in_box_1. eauto.
Qed.

Lemma in_box_3 f0 f1 f2 q :
  in_box [f0; f1; f2] q <->
  exists x y z, q = [x; y; z] /\ fst f0 <= x < snd f0 /\ fst f1 <= y < snd f1 /\ fst f2 <= z < snd f2.
Proof.
  rewrite in_box_cons. split.
  - intros (x & q' & -> & H & H'). apply in_box_2 in H'. destruct H' as (y & z & -> & H').
    exists x, y, z. tauto.
  - intros (x & y & z & -> & H & H'). exists x, [y; z]. split; [reflexivity|]. split; [assumption|].
    apply in_box_2. exists y, z. tauto.
Qed.

Lemma regions_D2 chk n0 i0 p0 n1 i1 p1 :
  dim_fits (n0, i0, p0) -> dim_fits (n1, i1, p1) ->
  let s := mk_sizeT2 n0 i0 p0 n1 i1 p1 in
  (forall d n i p, (d = 0 /\ (n, i, p) = (n0, i0, p0)) \/ (d = 1 /\ (n, i, p) = (n1, i1, p1)) ->
     (forall t fl,
        sbegin2 chk s d t = Ok (fst (region (n, i, p) t)) /\
        send2 chk s d t = Ok (snd (region (n, i, p) t)) /\
        slast2 chk s d t = Ok (snd (region (n, i, p) t) - 1) /\
        sbound2 chk s d t fl = Ok (edge (region (n, i, p) t) fl)) /\
     ssize2 chk s d RN = Ok n /\ ssize2 chk s d RIN = Ok i /\
     ssize2 chk s d RP = Ok p /\ ssize2 chk s d RALL = Ok (n + i + p)) /\
  (forall t0 t1, exists r, srange2 chk s t0 t1 = Ok r /\
     faces2 r = [region (n0, i0, p0) t0; region (n1, i1, p1) t1]) /\
  (exists R, srange2 chk s RALL RALL = Ok R /\
     forall q, in_box (faces2 R) q <->
       exists! ts : ra * ra, part (fst ts) /\ part (snd ts) /\
         exists r, srange2 chk s (fst ts) (snd ts) = Ok r /\ in_box (faces2 r) q).
Proof.
  intros H0 H1 s.
  assert (Es : s = mkSize2 (i0, i1) (n0, n1) (p0, p1)) by (apply mk_sizeT2_fits; assumption).
  assert (HF : Forall dim_fits (shape2 s)).
  { rewrite Es. unfold shape2. cbn [fst snd s2_in s2_n s2_p].
    constructor; [assumption|]. constructor; [assumption|constructor]. }
  assert (E0 : dimof2 s 0 = (n0, i0, p0)) by (rewrite Es; reflexivity).
  assert (E1 : dimof2 s 1 = (n1, i1, p1)) by (rewrite Es; reflexivity).
  assert (R : forall t0 t1, exists r, srange2 chk s t0 t1 = Ok r /\
     faces2 r = [region (n0, i0, p0) t0; region (n1, i1, p1) t1]).
  { intros t0 t1. rewrite srange2_eq by assumption. eexists. split; [reflexivity|].
    unfold faces2. cbn [r2_begin r2_size fst snd]. rewrite !Zplus_minus, E0, E1.
    now destruct (region (n0, i0, p0) t0), (region (n1, i1, p1) t1). }
  split; [|split; [exact R|]].
  - intros d n i p Hd.
    assert (Hd' : 0 <= d < 2) by (destruct Hd as [[-> _]|[-> _]]; lia).
    assert (Ed : dimof2 s d = (n, i, p)) by (destruct Hd as [[-> ->]|[-> ->]]; assumption).
    pose proof (dim_facts2 chk s d Hd' HF) as F. rewrite Ed in F.
    destruct F as (_ & _ & _ & F).
    split; [|split; [|split; [|split]]].
    + intros t fl. destruct (F t) as (A & B & C & D & E). auto.
    + destruct (F RN) as (_ & _ & C & _). rewrite C. cbn [region fst snd]. f_equal. lia.
    + destruct (F RIN) as (_ & _ & C & _). rewrite C. cbn [region fst snd]. f_equal. lia.
    + destruct (F RP) as (_ & _ & C & _). rewrite C. cbn [region fst snd]. f_equal. lia.
    + destruct (F RALL) as (_ & _ & C & _). rewrite C. cbn [region fst snd]. f_equal. lia.
  - destruct (R RALL RALL) as (Ra & HR & FR). exists Ra. split; [assumption|].
    intros q. rewrite FR, in_box_2. split.
    + intros (x & y & -> & Hx & Hy).
      apply (part_unique _ _ H0) in Hx. apply (part_unique _ _ H1) in Hy.
      destruct Hx as (t0 & [Pt0 Ht0] & U0). destruct Hy as (t1 & [Pt1 Ht1] & U1).
      exists (t0, t1). split.
      * cbn [fst snd]. split; [assumption|]. split; [assumption|].
        destruct (R t0 t1) as (r & Hr & Fr). exists r. split; [assumption|].
        rewrite Fr, in_box_2. exists x, y. auto.
      * intros [t0' t1'] (Pt0' & Pt1' & r' & Hr' & Br'). cbn [fst snd] in *.
        destruct (R t0' t1') as (r & Hr & Fr). rewrite Hr in Hr'. injection Hr' as <-.
        rewrite Fr, in_box_2 in Br'. destruct Br' as (x' & y' & [= <- <-] & Hx' & Hy').
        f_equal; [apply U0 | apply U1]; auto.
    + intros ([t0 t1] & (Pt0 & Pt1 & r & Hr & Br) & _). cbn [fst snd] in *.
      destruct (R t0 t1) as (r' & Hr' & Fr'). rewrite Hr in Hr'. injection Hr' as <-.
      rewrite Fr', in_box_2 in Br. destruct Br as (x & y & -> & Hx & Hy). exists x, y.
      split; [reflexivity|]. split; eapply region_in_all; eauto.
Qed.

Lemma regions_D3 chk n0 i0 p0 n1 i1 p1 n2 i2 p2 :
  dim_fits (n0, i0, p0) -> dim_fits (n1, i1, p1) -> dim_fits (n2, i2, p2) ->
  let s := mk_sizeT3 n0 i0 p0 n1 i1 p1 n2 i2 p2 in
  (forall d n i p, (d = 0 /\ (n, i, p) = (n0, i0, p0)) \/ (d = 1 /\ (n, i, p) = (n1, i1, p1)) \/
                   (d = 2 /\ (n, i, p) = (n2, i2, p2)) ->
     (forall t fl,
        sbegin3 chk s d t = Ok (fst (region (n, i, p) t)) /\
        send3 chk s d t = Ok (snd (region (n, i, p) t)) /\
        slast3 chk s d t = Ok (snd (region (n, i, p) t) - 1) /\
        sbound3 chk s d t fl = Ok (edge (region (n, i, p) t) fl)) /\
     ssize3 chk s d RN = Ok n /\ ssize3 chk s d RIN = Ok i /\
     ssize3 chk s d RP = Ok p /\ ssize3 chk s d RALL = Ok (n + i + p)) /\
  (forall t0 t1 t2, exists r, srange3 chk s t0 t1 t2 = Ok r /\
     faces3 r = [region (n0, i0, p0) t0; region (n1, i1, p1) t1; region (n2, i2, p2) t2]) /\
  (exists R, srange3 chk s RALL RALL RALL = Ok R /\
     forall q, in_box (faces3 R) q <->
       exists! ts : ra * ra * ra, part (fst (fst ts)) /\ part (snd (fst ts)) /\ part (snd ts) /\
         exists r, srange3 chk s (fst (fst ts)) (snd (fst ts)) (snd ts) = Ok r /\ in_box (faces3 r) q).
Proof.
  intros H0 H1 H2 s.
  assert (Es : s = mkSize3 (mkI3 i0 i1 i2) (mkI3 n0 n1 n2) (mkI3 p0 p1 p2))
    by (apply mk_sizeT3_fits; assumption).
  assert (HF : Forall dim_fits (shape3 s)).
  { rewrite Es. unfold shape3. cbn [c0 c1 c2 s3_in s3_n s3_p].
    constructor; [assumption|]. constructor; [assumption|]. constructor; [assumption|constructor]. }
  assert (E0 : dimof3 s 0 = (n0, i0, p0)) by (rewrite Es; reflexivity).
  assert (E1 : dimof3 s 1 = (n1, i1, p1)) by (rewrite Es; reflexivity).
  assert (E2 : dimof3 s 2 = (n2, i2, p2)) by (rewrite Es; reflexivity).
  assert (R : forall t0 t1 t2, exists r, srange3 chk s t0 t1 t2 = Ok r /\
     faces3 r = [region (n0, i0, p0) t0; region (n1, i1, p1) t1; region (n2, i2, p2) t2]).
  { intros t0 t1 t2. rewrite srange3_eq by assumption. eexists. split; [reflexivity|].
    unfold faces3. cbn [r3_begin r3_size c0 c1 c2]. rewrite !Zplus_minus, E0, E1, E2.
    now destruct (region (n0, i0, p0) t0), (region (n1, i1, p1) t1), (region (n2, i2, p2) t2). }
  split; [|split; [exact R|]].
  - intros d n i p Hd.
    assert (Hd' : 0 <= d < 3) by (destruct Hd as [[-> _]|[[-> _]|[-> _]]]; lia).
    assert (Ed : dimof3 s d = (n, i, p)) by (destruct Hd as [[-> ->]|[[-> ->]|[-> ->]]]; assumption).
    pose proof (dim_facts3 chk s d Hd' HF) as F. rewrite Ed in F.
    destruct F as (_ & _ & _ & F).
    split; [|split; [|split; [|split]]].
    + intros t fl. destruct (F t) as (A & B & C & D & E). auto.
    + destruct (F RN) as (_ & _ & C & _). rewrite C. cbn [region fst snd]. f_equal. lia.
    + destruct (F RIN) as (_ & _ & C & _). rewrite C. cbn [region fst snd]. f_equal. lia.
    + destruct (F RP) as (_ & _ & C & _). rewrite C. cbn [region fst snd]. f_equal. lia.
    + destruct (F RALL) as (_ & _ & C & _). rewrite C. cbn [region fst snd]. f_equal. lia.
  - destruct (R RALL RALL RALL) as (Ra & HR & FR). exists Ra. split; [assumption|].
    intros q. rewrite FR, in_box_3. split.
    + intros (x & y & z & -> & Hx & Hy & Hz).
      apply (part_unique _ _ H0) in Hx. apply (part_unique _ _ H1) in Hy.
      apply (part_unique _ _ H2) in Hz.
      destruct Hx as (t0 & [Pt0 Ht0] & U0). destruct Hy as (t1 & [Pt1 Ht1] & U1).
      destruct Hz as (t2 & [Pt2 Ht2] & U2).
      exists (t0, t1, t2). split.
      * cbn [fst snd]. split; [assumption|]. split; [assumption|]. split; [assumption|].
        destruct (R t0 t1 t2) as (r & Hr & Fr). exists r. split; [assumption|].
        rewrite Fr, in_box_3. exists x, y, z. auto.
      * intros [[t0' t1'] t2'] (Pt0' & Pt1' & Pt2' & r' & Hr' & Br'). cbn [fst snd] in *.
        destruct (R t0' t1' t2') as (r & Hr & Fr). rewrite Hr in Hr'. injection Hr' as <-.
        rewrite Fr, in_box_3 in Br'. destruct Br' as (x' & y' & z' & [= <- <- <-] & Hx' & Hy' & Hz').
        f_equal; [f_equal; [apply U0 | apply U1] | apply U2]; auto.
    + intros ([[t0 t1] t2] & (Pt0 & Pt1 & Pt2 & r & Hr & Br) & _). cbn [fst snd] in *.
      destruct (R t0 t1 t2) as (r' & Hr' & Fr'). rewrite Hr in Hr'. injection Hr' as <-.
      rewrite Fr', in_box_3 in Br. destruct Br as (x & y & z & -> & Hx & Hy & Hz). exists x, y, z.
      split; [reflexivity|]. split; [|split]; eapply region_in_all; eauto.
Qed.

(** Dimension numbers that do not exist. *)
Lemma bad_dim_D1 s r d t fl ii f0 :
  1 <= d ->
  rbegin1 true r d = Err (EDim d 0) /\ rsize1 true r d = Err (EDim d 0) /\
  rend1 true r d = Err (EDim d 0) /\ rlast1 true r d = Err (EDim d 0) /\
  sin1 true s d = Err (EDim d 0) /\ sn1 true s d = Err (EDim d 0) /\ sp1 true s d = Err (EDim d 0) /\
  sbegin1 true s d t = Err (EDim d 0) /\ send1 true s d t = Err (EDim d 0) /\
  ssize1 true s d t = Err (EDim d 0) /\ slast1 true s d t = Err (EDim d 0) /\
  sbound1 true s d t fl = Err (EDim d 0) /\ mirror1 true s d fl ii = Err (EDim d 0) /\
  periodic1 true s d f0 ii = Err (EDim d 0).
Proof.
  intros H. apply Z.leb_le in H.
  unfold mirror1, periodic1, sbound1, slast1, ssize1, send1, sbegin1, sin1, sn1, sp1,
    rlast1, rend1, rsize1, rbegin1, check_d1. rewrite H.
  destruct fl, f0, t; cbn; auto 20.
Qed.

Lemma bad_dim_D2 s r d t fl ii f0 :
  2 <= d ->
  rbegin2 true r d = Err (EDim d 1) /\ rsize2 true r d = Err (EDim d 1) /\
  rend2 true r d = Err (EDim d 1) /\ rlast2 true r d = Err (EDim d 1) /\
  sin2 true s d = Err (EDim d 1) /\ sn2 true s d = Err (EDim d 1) /\ sp2 true s d = Err (EDim d 1) /\
  sbegin2 true s d t = Err (EDim d 1) /\ send2 true s d t = Err (EDim d 1) /\
  ssize2 true s d t = Err (EDim d 1) /\ slast2 true s d t = Err (EDim d 1) /\
  sbound2 true s d t fl = Err (EDim d 1) /\ mirror2 true s d fl ii = Err (EDim d 1) /\
  periodic2 true s d f0 ii = Err (EDim d 1).
Proof.
  intros H. apply Z.leb_le in H.
  unfold mirror2, periodic2, sbound2, slast2, ssize2, send2, sbegin2, sin2, sn2, sp2,
    rlast2, rend2, rsize2, rbegin2, check_d2. rewrite H.
  destruct fl, f0, t; cbn; auto 20.
Qed.

Lemma bad_dim_D3 s r d t fl ii f0 :
  3 <= d ->
  rbegin3 true r d = Err (EDim d 2) /\ rsize3 true r d = Err (EDim d 2) /\
  rend3 true r d = Err (EDim d 2) /\ rlast3 true r d = Err (EDim d 2) /\
  sin3 true s d = Err (EDim d 2) /\ sn3 true s d = Err (EDim d 2) /\ sp3 true s d = Err (EDim d 2) /\
  sbegin3 true s d t = Err (EDim d 2) /\ send3 true s d t = Err (EDim d 2) /\
  ssize3 true s d t = Err (EDim d 2) /\ slast3 true s d t = Err (EDim d 2) /\
  sbound3 true s d t fl = Err (EDim d 2) /\ mirror3 true s d fl ii = Err (EDim d 2) /\
  periodic3 true s d f0 ii = Err (EDim d 2).
Proof.
  intros H. apply Z.leb_le in H.
  unfold mirror3, periodic3, sbound3, slast3, ssize3, send3, sbegin3, sin3, sn3, sp3,
    rlast3, rend3, rsize3, rbegin3, check_d3. rewrite H.
  destruct fl, f0, t; cbn; auto 20.
Qed.

(** ** C02 *)

Lemma overlap_iff_D1 chk a b :
  box_fits (faces1 a) -> box_fits (faces1 b) ->
  box_nonempty (faces1 a) -> box_nonempty (faces1 b) ->
  exists v, is_overlap1 chk a b = Ok v /\ is_overlap1 chk b a = Ok v /\
    (v = true <-> exists q, in_box (faces1 a) q /\ in_box (faces1 b) q).
Proof.
  intros Fa Fb Na Nb. rewrite !is_overlap1_eq by assumption.
  eexists. split; [reflexivity|].
  inversion_clear Na as [|? ? Na0 _]. inversion_clear Nb as [|? ? Nb0 _].
  cbn [fst snd] in *. split.
  - f_equal. unfold meets. cbn [fst snd]. rewrite !Z.geb_leb.
    f_equal. rewrite orb_comm. reflexivity.
  - rewrite meets_ne by assumption. cbn [fst snd]. split.
    + intros [x [Hx Hy]]. exists [x]. unfold faces1. rewrite !in_box_1. cbn [fst snd]. split; exists x; auto.
    + intros [q [Hq Hq']]. unfold faces1 in *. rewrite in_box_1 in *.
      destruct Hq as (x & -> & Hx). destruct Hq' as (x' & [= <-] & Hx'). exists x. auto.
Qed.

Lemma meets_sym a b : meets a b = meets b a.
Proof. unfold meets. rewrite !Z.geb_leb. f_equal. apply orb_comm. Qed.

Lemma overlap_iff_D2 chk a b :
  box_fits (faces2 a) -> box_fits (faces2 b) ->
  box_nonempty (faces2 a) -> box_nonempty (faces2 b) ->
  exists v, is_overlap2 chk a b = Ok v /\ is_overlap2 chk b a = Ok v /\
    (v = true <-> exists q, in_box (faces2 a) q /\ in_box (faces2 b) q).
Proof.
  intros Fa Fb Na Nb. rewrite !is_overlap2_eq by assumption.
  eexists. split; [reflexivity|]. split.
  - f_equal. f_equal; apply meets_sym.
  - unfold faces2 in *. cbn [nth].
    inversion_clear Na as [|? ? Na0 Na']. inversion_clear Na' as [|? ? Na1 _].
    inversion_clear Nb as [|? ? Nb0 Nb']. inversion_clear Nb' as [|? ? Nb1 _].
    rewrite andb_true_iff, !meets_ne by assumption. split.
    + intros [[x Hx] [y Hy]]. exists [x; y]. rewrite !in_box_2. split; exists x, y; tauto.
    + intros [q [Hq Hq']]. rewrite in_box_2 in *.
      destruct Hq as (x & y & -> & Hx). destruct Hq' as (x' & y' & [= <- <-] & Hx').
      split; [exists x | exists y]; tauto.
Qed.

Lemma overlap_iff_D3 chk a b :
  box_fits (faces3 a) -> box_fits (faces3 b) ->
  box_nonempty (faces3 a) -> box_nonempty (faces3 b) ->
  exists v, is_overlap3 chk a b = Ok v /\ is_overlap3 chk b a = Ok v /\
    (v = true <-> exists q, in_box (faces3 a) q /\ in_box (faces3 b) q).
Proof.
  intros Fa Fb Na Nb. rewrite !is_overlap3_eq by assumption.
  eexists. split; [reflexivity|]. split.
  - f_equal. f_equal; [apply meets_sym|]. f_equal; apply meets_sym.
  - unfold faces3 in *. cbn [nth].
    inversion_clear Na as [|? ? Na0 Na']. inversion_clear Na' as [|? ? Na1 Na'']. inversion_clear Na'' as [|? ? Na2 _].
    inversion_clear Nb as [|? ? Nb0 Nb']. inversion_clear Nb' as [|? ? Nb1 Nb'']. inversion_clear Nb'' as [|? ? Nb2 _].
    rewrite !andb_true_iff, !meets_ne by assumption. split.
    + intros [[x Hx] [[y Hy] [z Hz]]]. exists [x; y; z]. rewrite !in_box_3. split; exists x, y, z; tauto.
    + intros [q [Hq Hq']]. rewrite in_box_3 in *.
      destruct Hq as (x & y & z & -> & Hx). destruct Hq' as (x' & y' & z' & [= <- <- <-] & Hx').
      split; [exists x | split; [exists y | exists z]]; tauto.
Qed.

(** ** C03 *)

Lemma fits1 a : box_fits (faces1 a) -> in_int (r1_begin a) /\ in_int (r1_begin a + r1_size a) /\ in_int (r1_size a).
Proof. intros H. split_fits. unfold in_int. lia. Qed.

Lemma fits2 a : box_fits (faces2 a) ->
  let '(b0, b1) := r2_begin a in let '(s0, s1) := r2_size a in
  in_int b0 /\ in_int (b0 + s0) /\ in_int s0 /\ in_int b1 /\ in_int (b1 + s1) /\ in_int s1.
Proof. intros H. destruct a as [[] []]. split_fits. cbn [r2_begin r2_size fst snd] in *. unfold in_int. lia. Qed.

Lemma fits3 a : box_fits (faces3 a) ->
  let '(mkI3 b0 b1 b2) := r3_begin a in let '(mkI3 s0 s1 s2) := r3_size a in
  in_int b0 /\ in_int (b0 + s0) /\ in_int s0 /\ in_int b1 /\ in_int (b1 + s1) /\ in_int s1 /\
  in_int b2 /\ in_int (b2 + s2) /\ in_int s2.
Proof. intros H. destruct a as [[x0 x1 x2] [y0 y1 y2]]. split_fits. cbn [r3_begin r3_size c0 c1 c2] in *. unfold in_int. lia. Qed.

Lemma overlap_exact_D1 chk a b :
  box_fits (faces1 a) -> box_fits (faces1 b) ->
  box_nonempty (faces1 a) -> box_nonempty (faces1 b) ->
  ((exists q, in_box (faces1 a) q /\ in_box (faces1 b) q) ->
   exists r, overlap1 chk a b = Ok r /\
     (forall q, in_box (faces1 r) q <-> in_box (faces1 a) q /\ in_box (faces1 b) q)) /\
  (~ (exists q, in_box (faces1 a) q /\ in_box (faces1 b) q) ->
   overlap1 true a b = Err EOverlapNotFound).
Proof.
  intros Fa Fb Na Nb.
  destruct (overlap_iff_D1 chk a b Fa Fb Na Nb) as (v & Hv & _ & Hiff).
  rewrite is_overlap1_eq in Hv by assumption. injection Hv as Hv.
  pose proof (fits1 a Fa) as FF. pose proof (fits1 b Fb) as GG.
  split.
  - intros Hq. apply Hiff in Hq. rewrite Hq in Hv.
    rewrite overlap1_eq; [|assumption|assumption|].
    + rewrite Hv. rewrite andb_false_r. eexists. split; [reflexivity|].
      intros q. unfold faces1. cbn [r1_begin r1_size]. rewrite !in_box_1. cbn [fst snd]. split.
      * intros (x & -> & Hx). split; exists x; split; auto; lia.
      * intros [(x & -> & Hx) (x' & [= <-] & Hx')]. exists x. split; auto; lia.
    + apply (inter_fits (r1_begin a, r1_begin a + r1_size a) (r1_begin b, r1_begin b + r1_size b)); [| |exact Hv];
      cbn [fst snd]; unfold in_int in *; lia.
  - intros Hq. unfold overlap1. rewrite is_overlap1_eq by assumption. rewrite Hv. cbn [rbind].
    destruct v; [exfalso; apply Hq, Hiff; reflexivity | reflexivity].
Qed.

Ltac ne_split H := repeat match type of H with
  | Forall _ (_ :: _) => let X := fresh "N" in let Y := fresh "NN" in
      inversion_clear H as [|? ? X Y]; rename Y into H
  end; try clear H.

Lemma overlap_exact_D2 chk a b :
  box_fits (faces2 a) -> box_fits (faces2 b) ->
  box_nonempty (faces2 a) -> box_nonempty (faces2 b) ->
  ((exists q, in_box (faces2 a) q /\ in_box (faces2 b) q) ->
   exists r, overlap2 chk a b = Ok r /\
     (forall q, in_box (faces2 r) q <-> in_box (faces2 a) q /\ in_box (faces2 b) q)) /\
  (~ (exists q, in_box (faces2 a) q /\ in_box (faces2 b) q) ->
   overlap2 true a b = Err EOverlapNotFound).
Proof.
  intros Fa Fb Na Nb.
  destruct (overlap_iff_D2 chk a b Fa Fb Na Nb) as (v & Hv & _ & Hiff).
  rewrite is_overlap2_eq in Hv by assumption. injection Hv as Hv.
  pose proof (fits2 a Fa) as FF. pose proof (fits2 b Fb) as GG.
  split.
  - intros Hq. apply Hiff in Hq. rewrite Hq in Hv.
    pose proof Hv as Hv'. apply andb_prop in Hv'. destruct Hv' as [M0 M1].
    rewrite overlap2_eq; [|assumption|assumption| |].
    + cbn [faces2 nth]. rewrite Hv. cbn [negb]. rewrite andb_false_r. eexists. split; [reflexivity|].
      intros q. unfold faces2, inter. cbn [r2_begin r2_size fst snd nth]. rewrite !in_box_2. cbn [fst snd]. split.
      * intros (x & y & -> & Hx). split; exists x, y; repeat split; auto; lia.
      * intros [(x & y & -> & Hx) (x' & y' & [= <- <-] & Hx')]. exists x, y. repeat split; auto; lia.
    + apply inter_fits; [| |exact M0]; unfold in_int, faces2; cbn [fst snd nth]; destruct a as [[] []], b as [[] []]; unfold in_int in *; cbn [r2_begin r2_size r3_begin r3_size M_RS3.c0 M_RS3.c1 M_RS3.c2 fst snd] in *; lia.
    + apply inter_fits; [| |exact M1]; unfold in_int, faces2; cbn [fst snd nth]; destruct a as [[] []], b as [[] []]; unfold in_int in *; cbn [r2_begin r2_size r3_begin r3_size M_RS3.c0 M_RS3.c1 M_RS3.c2 fst snd] in *; lia.
  - intros Hq. unfold overlap2. rewrite is_overlap2_eq by assumption. cbn [faces2 nth]. rewrite Hv. cbn [rbind].
    destruct v; [exfalso; apply Hq, Hiff; reflexivity | reflexivity].
Qed.

Lemma overlap_exact_D3 chk a b :
  box_fits (faces3 a) -> box_fits (faces3 b) ->
  box_nonempty (faces3 a) -> box_nonempty (faces3 b) ->
  ((exists q, in_box (faces3 a) q /\ in_box (faces3 b) q) ->
   exists r, overlap3 chk a b = Ok r /\
     (forall q, in_box (faces3 r) q <-> in_box (faces3 a) q /\ in_box (faces3 b) q)) /\
  (~ (exists q, in_box (faces3 a) q /\ in_box (faces3 b) q) ->
   overlap3 true a b = Err EOverlapNotFound).
Proof.
  intros Fa Fb Na Nb.
  destruct (overlap_iff_D3 chk a b Fa Fb Na Nb) as (v & Hv & _ & Hiff).
  rewrite is_overlap3_eq in Hv by assumption. injection Hv as Hv.
  pose proof (fits3 a Fa) as FF. pose proof (fits3 b Fb) as GG.
  split.
  - intros Hq. apply Hiff in Hq. rewrite Hq in Hv.
    pose proof Hv as Hv'. apply andb_prop in Hv'. destruct Hv' as [M0 M12].
    apply andb_prop in M12. destruct M12 as [M1 M2].
    rewrite overlap3_eq; [|assumption|assumption| | |].
    + cbn [faces3 nth]. rewrite Hv. cbn [negb]. rewrite andb_false_r. eexists. split; [reflexivity|].
      intros q. unfold faces3, inter. cbn [r3_begin r3_size c0 c1 c2 fst snd nth]. rewrite !in_box_3. cbn [fst snd]. split.
      * intros (x & y & z & -> & Hx). split; exists x, y, z; repeat split; auto; lia.
      * intros [(x & y & z & -> & Hx) (x' & y' & z' & [= <- <- <-] & Hx')]. exists x, y, z. repeat split; auto; lia.
    + apply inter_fits; [| |exact M0]; unfold in_int, faces3; cbn [fst snd nth]; destruct a as [[] []], b as [[] []]; unfold in_int in *; cbn [r2_begin r2_size r3_begin r3_size M_RS3.c0 M_RS3.c1 M_RS3.c2 fst snd] in *; lia.
    + apply inter_fits; [| |exact M1]; unfold in_int, faces3; cbn [fst snd nth]; destruct a as [[] []], b as [[] []]; unfold in_int in *; cbn [r2_begin r2_size r3_begin r3_size M_RS3.c0 M_RS3.c1 M_RS3.c2 fst snd] in *; lia.
    + apply inter_fits; [| |exact M2]; unfold in_int, faces3; cbn [fst snd nth]; destruct a as [[] []], b as [[] []]; unfold in_int in *; cbn [r2_begin r2_size r3_begin r3_size M_RS3.c0 M_RS3.c1 M_RS3.c2 fst snd] in *; lia.
  - intros Hq. unfold overlap3. rewrite is_overlap3_eq by assumption. cbn [faces3 nth]. rewrite Hv. cbn [rbind].
    destruct v; [exfalso; apply Hq, Hiff; reflexivity | reflexivity].
Qed.

(** Unchecked builds never throw. *)
Lemma ck_rbind_not_err {A} z (f : Z -> res A) e :
  (forall x, f x <> Err e) -> rbind (ck z) f <> Err e.
Proof. intros H. unfold ck. destruct (in_intb z); cbn; [apply H | discriminate]. Qed.

Ltac noerr :=
  repeat first
    [ discriminate
    | apply ck_not_err
    | apply ck_rbind_not_err; intros
    | match goal with |- context [if ?c then _ else _] => destruct c end
    | progress cbn [rbind] ].

Lemma unchecked_no_throw_D1 a b e : overlap1 false a b <> Err e.
Proof.
  unfold overlap1. rs.
  unfold ck; repeat match goal with
    | |- context [if ?c then _ else _] => destruct c; cbn [rbind] end; unfold isub, ck;
  repeat match goal with
    | |- context [if ?c then _ else _] => destruct c; cbn [rbind] end; discriminate.
Qed.

Lemma rbind_ok_ne {A B} (x : res A) (f : A -> res B) e :
  (forall e, x <> Err e) -> (forall a, f a <> Err e) -> rbind x f <> Err e.
Proof. intros H1 H2. destruct x; cbn; [apply H2 | intros [= ->]; now apply (H1 e) | discriminate]. Qed.

Ltac noerr2 :=
  repeat first
    [ discriminate
    | apply ck_not_err
    | apply rbind_ok_ne; intros
    | match goal with |- (if ?c then _ else _) <> _ => destruct c end ].

Lemma unchecked_no_throw_D2 a b e : overlap2 false a b <> Err e.
Proof. unfold overlap2, isub. rs. noerr2. Qed.

Lemma unchecked_no_throw_D3 a b e : overlap3 false a b <> Err e.
Proof. unfold overlap3, isub. rs. noerr2. Qed.

(** ** C04 *)

Ltac lsteq := repeat match goal with
  | |- _ :: _ = _ :: _ => f_equal
  | |- (_, _) = (_, _) => f_equal
  end; lia.

Lemma moves_D1 r i :
  (box_fits (shift_box [i] (faces1 r)) ->
   exists r', tran1 r i = Ok r' /\ faces1 r' = shift_box [i] (faces1 r)) /\
  (box_fits (raise_low [i] (faces1 r)) ->
   exists r', cut_head1 r i = Ok r' /\ faces1 r' = raise_low [i] (faces1 r)) /\
  (box_fits (lower_high [i] (faces1 r)) ->
   exists r', cut_tail1 r i = Ok r' /\ faces1 r' = lower_high [i] (faces1 r)).
Proof.
  unfold tran1, cut_head1, cut_tail1, shift_box, raise_low, lower_high.
  cbn [faces1 combine map].
  split; [|split]; intros H; split_fits; arith; eexists; (split; [reflexivity|]);
  unfold faces1; cbn [r1_begin r1_size fst snd]; lsteq.
Qed.

Lemma moves_D2 r i j :
  (box_fits (shift_box [i; j] (faces2 r)) ->
   exists r', tran2 r i j = Ok r' /\ faces2 r' = shift_box [i; j] (faces2 r)) /\
  (box_fits (raise_low [i; j] (faces2 r)) ->
   exists r', cut_head2 r i j = Ok r' /\ faces2 r' = raise_low [i; j] (faces2 r)) /\
  (box_fits (lower_high [i; j] (faces2 r)) ->
   exists r', cut_tail2 r i j = Ok r' /\ faces2 r' = lower_high [i; j] (faces2 r)).
Proof.
  unfold tran2, cut_head2, cut_tail2, shift_box, raise_low, lower_high.
  cbn [faces2 combine map].
  split; [|split]; intros H; split_fits; arith; eexists; (split; [reflexivity|]);
  unfold faces2; cbn [r2_begin r2_size fst snd]; lsteq.
Qed.

Lemma moves_D3 r i j k :
  (box_fits (shift_box [i; j; k] (faces3 r)) ->
   exists r', tran3 r i j k = Ok r' /\ faces3 r' = shift_box [i; j; k] (faces3 r)) /\
  (box_fits (raise_low [i; j; k] (faces3 r)) ->
   exists r', cut_head3 r i j k = Ok r' /\ faces3 r' = raise_low [i; j; k] (faces3 r)) /\
  (box_fits (lower_high [i; j; k] (faces3 r)) ->
   exists r', cut_tail3 r i j k = Ok r' /\ faces3 r' = lower_high [i; j; k] (faces3 r)).
Proof.
  unfold tran3, cut_head3, cut_tail3, shift_box, raise_low, lower_high.
  cbn [faces3 combine map].
  split; [|split]; intros H; split_fits; arith; eexists; (split; [reflexivity|]);
  unfold faces3; cbn [r3_begin r3_size c0 c1 c2 fst snd]; lsteq.
Qed.

(** What moving faces means for points; any number of dimensions. *)
Lemma shift_box_points v B q :
  length v = length B -> length q = length B ->
  (in_box (shift_box v B) q <-> in_box B (vsub q v)).
Proof.
  revert v q. induction B as [|f B IH]; intros v q Hv Hq.
  - destruct q; [|discriminate]. destruct v; [|discriminate]. split; intros; constructor.
  - destruct v as [|x v]; [discriminate|]. destruct q as [|y q]; [discriminate|].
    cbn [length] in *. injection Hv as Hv. injection Hq as Hq.
    unfold shift_box, vsub. cbn [combine map]. rewrite !in_box_cons.
    fold (shift_box v B). fold (vsub q v). split.
    + intros (y' & q' & [= <- <-] & Hy & Hb). eexists _, _. split; [reflexivity|].
      cbn [fst snd] in *. split; [lia|]. now apply IH.
    + intros (y' & q' & [= <- <-] & Hy & Hb). eexists _, _. split; [reflexivity|].
      cbn [fst snd] in *. split; [lia|]. now apply IH.
Qed.

(** Undoing and accumulating, directly on the ranges. *)

Ltac okinv := repeat match goal with
  | H : rbind _ _ = Ok _ |- _ =>
      apply rbind_ok_inv in H; let b := fresh "b" in let H1 := fresh "H" in destruct H as (b & H1 & H)
  | H : ck _ = Ok _ |- _ => apply ck_inv in H; destruct H as [-> H]
  | H : Ok _ = Ok _ |- _ => injection H as <-
  end.

Ltac rng_eq := repeat match goal with
  | |- Ok _ = Ok _ => f_equal
  | |- mkRange1 _ _ = mkRange1 _ _ => f_equal
  | |- mkRange2 _ _ = mkRange2 _ _ => f_equal
  | |- mkRange3 _ _ = mkRange3 _ _ => f_equal
  | |- mkI3 _ _ _ = mkI3 _ _ _ => f_equal
  | |- (_, _) = (_, _) => f_equal
  end; try lia; try reflexivity.

Ltac moves_tac :=
  unfold tran1, cut_head1, cut_tail1, tran2, cut_head2, cut_tail2, tran3, cut_head3, cut_tail3,
    iadd, isub in *; okinv;
  cbn [r1_begin r1_size r2_begin r2_size r3_begin r3_size c0 c1 c2 fst snd] in *; ckgo; rng_eq.

Lemma undo_D1 r r' i :
  box_fits (faces1 r) ->
  (tran1 r i = Ok r' -> tran1 r' (- i) = Ok r) /\
  (cut_head1 r i = Ok r' -> cut_head1 r' (- i) = Ok r) /\
  (cut_tail1 r i = Ok r' -> cut_tail1 r' (- i) = Ok r).
Proof.
  intros F. destruct r as [b s]. apply fits1 in F. cbn [r1_begin r1_size] in F.
  split; [|split]; intros H; moves_tac.
Qed.

Lemma undo_D2 r r' i j :
  box_fits (faces2 r) ->
  (tran2 r i j = Ok r' -> tran2 r' (- i) (- j) = Ok r) /\
  (cut_head2 r i j = Ok r' -> cut_head2 r' (- i) (- j) = Ok r) /\
  (cut_tail2 r i j = Ok r' -> cut_tail2 r' (- i) (- j) = Ok r).
Proof.
  intros F. destruct r as [[b0 b1] [s0 s1]]. apply fits2 in F. cbn [r2_begin r2_size] in F.
  split; [|split]; intros H; moves_tac.
Qed.

Lemma undo_D3 r r' i j k :
  box_fits (faces3 r) ->
  (tran3 r i j k = Ok r' -> tran3 r' (- i) (- j) (- k) = Ok r) /\
  (cut_head3 r i j k = Ok r' -> cut_head3 r' (- i) (- j) (- k) = Ok r) /\
  (cut_tail3 r i j k = Ok r' -> cut_tail3 r' (- i) (- j) (- k) = Ok r).
Proof.
  intros F. destruct r as [[b0 b1 b2] [s0 s1 s2]]. apply fits3 in F. cbn [r3_begin r3_size] in F.
  split; [|split]; intros H; moves_tac.
Qed.

Lemma add_up_D1 r r1 r2 i i' :
  (tran1 r i = Ok r1 -> tran1 r1 i' = Ok r2 -> tran1 r (i + i') = Ok r2) /\
  (cut_head1 r i = Ok r1 -> cut_head1 r1 i' = Ok r2 -> cut_head1 r (i + i') = Ok r2) /\
  (cut_tail1 r i = Ok r1 -> cut_tail1 r1 i' = Ok r2 -> cut_tail1 r (i + i') = Ok r2).
Proof. destruct r as [b s]. split; [|split]; intros H H'; moves_tac. Qed.

Lemma add_up_D2 r r1 r2 i j i' j' :
  (tran2 r i j = Ok r1 -> tran2 r1 i' j' = Ok r2 -> tran2 r (i + i') (j + j') = Ok r2) /\
  (cut_head2 r i j = Ok r1 -> cut_head2 r1 i' j' = Ok r2 -> cut_head2 r (i + i') (j + j') = Ok r2) /\
  (cut_tail2 r i j = Ok r1 -> cut_tail2 r1 i' j' = Ok r2 -> cut_tail2 r (i + i') (j + j') = Ok r2).
Proof. destruct r as [[b0 b1] [s0 s1]]. split; [|split]; intros H H'; moves_tac. Qed.

Lemma add_up_D3 r r1 r2 i j k i' j' k' :
  (tran3 r i j k = Ok r1 -> tran3 r1 i' j' k' = Ok r2 ->
   tran3 r (i + i') (j + j') (k + k') = Ok r2) /\
  (cut_head3 r i j k = Ok r1 -> cut_head3 r1 i' j' k' = Ok r2 ->
   cut_head3 r (i + i') (j + j') (k + k') = Ok r2) /\
  (cut_tail3 r i j k = Ok r1 -> cut_tail3 r1 i' j' k' = Ok r2 ->
   cut_tail3 r (i + i') (j + j') (k + k') = Ok r2).
Proof. destruct r as [[b0 b1 b2] [s0 s1 s2]]. split; [|split]; intros H H'; moves_tac. Qed.

(** ** C05 *)

Ltac check_range_tac :=
  match goal with
  | l : loc, off : Z |- _ =>
    pose proof (loc_val_range l) as L; unfold in_int in *;
    unfold sc_or; rs; unfold iadd, isub; cbn [rbind]; ckgo;
    match goal with |- context [if ?a && ?b then _ else _] =>
      destruct a eqn:E1; destruct b eqn:E3 end; zcmp; cbn [andb];
    match goal with |- context [?ii <? ?b] => destruct (ii <? b) eqn:E2 end; zcmp; cbn [rbind]; try lia; ckgo;
    try match goal with |- context [?ii >=? ?b] => destruct (ii >=? b) eqn:E4 end; zcmp; cbn [rbind]; try lia;
    try reflexivity;
    destruct l; unfold isub; cbn [rbind]; ckgo; try reflexivity;
    replace ((off =? 0) || (off =? 1)) with true
      by (symmetry; apply orb_true_iff; rewrite !Z.eqb_eq; lia); ckgo; reflexivity
  end.

Lemma check_range1_eq r l ii off :
  let f := (r1_begin r, r1_begin r + r1_size r) in
  in_int (fst f) -> in_int (snd f) -> margin f -> 0 <= off <= 1 ->
  check_range1 true r 0 l ii off =
  if (fst f <=? ii + off) && (ii + off <? snd f + loc_val l) then Ok tt
  else Err (range_error l 0 ii off f).
Proof.
  intros f B1 B2 M Ho. destruct M as (M1 & M2 & M3). subst f. cbn [fst snd] in *.
  unfold check_range1, range_error. cbn [fst snd]. check_range_tac.
Qed.

Lemma check_range2_eq r d l ii off :
  0 <= d < 2 ->
  let f := nth (Z.to_nat d) (faces2 r) (0, 0) in
  in_int (fst f) -> in_int (snd f) -> margin f -> 0 <= off <= 1 ->
  check_range2 true r d l ii off =
  if (fst f <=? ii + off) && (ii + off <? snd f + loc_val l) then Ok tt
  else Err (range_error l d ii off f).
Proof.
  intros Hd f B1 B2 M Ho. destruct M as (M1 & M2 & M3).
  unfold check_range2. rewrite check_d2_lt by assumption. cbn [rbind].
  assert (E : d = 0 \/ d = 1) by lia.
  destruct E as [-> | ->]; subst f; unfold faces2 in *;
  change (Z.to_nat 0) with O in *; change (Z.to_nat 1) with 1%nat in *;
  unfold range_error; cbn [nth fst snd] in *; check_range_tac.
Qed.

Lemma check_range3_eq r d l ii off :
  0 <= d < 3 ->
  let f := nth (Z.to_nat d) (faces3 r) (0, 0) in
  in_int (fst f) -> in_int (snd f) -> margin f -> 0 <= off <= 1 ->
  check_range3 true r d l ii off =
  if (fst f <=? ii + off) && (ii + off <? snd f + loc_val l) then Ok tt
  else Err (range_error l d ii off f).
Proof.
  intros Hd f B1 B2 M Ho. destruct M as (M1 & M2 & M3).
  unfold check_range3. rewrite check_d3_lt by assumption. cbn [rbind].
  assert (E : d = 0 \/ d = 1 \/ d = 2) by lia.
  destruct E as [-> | [-> | ->]]; subst f; unfold faces3 in *;
  change (Z.to_nat 0) with O in *; change (Z.to_nat 1) with 1%nat in *; change (Z.to_nat 2) with 2%nat in *;
  unfold range_error; cbn [nth fst snd] in *; check_range_tac.
Qed.

(** ** C06 *)

Lemma reflects_of g (bound : bflag -> res Z) :
  dim_fits g -> (forall fl, bound fl = Ok (edge (region g RIN) fl)) ->
  in_int (2 * edge (region g RIN) BP) ->
  reflects g (fun fl ii => let* b := bound fl in let* x := imul 2 b in isub x ii).
Proof.
  intros F B H2. destruct g as [[n i] p]. unfold dim_fits in F.
  set (m := fun fl ii => let* b := bound fl in let* x := imul 2 b in isub x ii).
  assert (E : forall fl ii, m fl ii = ck (2 * edge (region (n, i, p) RIN) fl - ii)).
  { intros fl ii. unfold m. rewrite B. cbn [rbind]. unfold imul, isub.
    rewrite ck_ok; [reflexivity|]. destruct fl; [|assumption].
    cbn [region edge fst snd]. unfold in_int. lia. }
  intros fl. cbv zeta. cbn [region] in *.
  split; [|split; [|split; [|split]]].
  - rewrite E. destruct fl; cbn [edge fst snd region] in *; rewrite ck_ok; unfold in_int in *; try lia; f_equal; lia.
  - intros x y Hx H. rewrite E in *. apply ck_inv in H. destruct H as [-> H].
    rewrite ck_ok; [f_equal; lia|]. unfold in_int in *. lia.
  - intros x y x' y' Hx Hy Hxy. rewrite E in *. apply ck_inv in Hx, Hy. lia.
  - intros Hw x Hx. rewrite E. eexists. rewrite ck_ok; [split; [reflexivity|]|];
    destruct fl; cbn [region edge fst snd ghost_width ghost_of] in *; unfold in_int in *; lia.
  - intros Hw.
    destruct fl; cbn [region edge fst snd ghost_width ghost_of] in *.
    + exists (-i), i. rewrite E. rewrite ck_ok; cbn [region edge fst snd]; [|unfold in_int; lia].
      split; [lia|]. split; [f_equal; lia|]. lia.
    + exists (2*i-1), (-1). rewrite E. rewrite ck_ok; cbn [region edge fst snd]; [|unfold in_int; lia].
      split; [lia|]. split; [f_equal; lia|]. lia.
Qed.

Lemma mirror_D1 chk n i p :
  dim_fits (n, i, p) -> in_int (2 * (i - 1)) ->
  reflects (n, i, p) (mirror1 chk (mk_sizeT1 n i p) 0).
Proof.
  intros H H2. rewrite mk_sizeT1_fits by assumption.
  apply reflects_of; [assumption| |assumption].
  intros fl. destruct (dim_facts1 chk n i p H) as (_ & _ & _ & F).
  destruct (F RIN) as (_ & _ & _ & _ & F'). apply F'.
Qed.

Lemma Forall_two {A} (P : A -> Prop) x y : P x -> P y -> Forall P [x; y].
Proof. auto. Qed.
Lemma Forall_three {A} (P : A -> Prop) x y z : P x -> P y -> P z -> Forall P [x; y; z].
Proof. auto. Qed.

Lemma mirror_D2 chk n0 i0 p0 n1 i1 p1 d n i p :
  dim_fits (n0, i0, p0) -> dim_fits (n1, i1, p1) ->
  (d = 0 /\ (n, i, p) = (n0, i0, p0)) \/ (d = 1 /\ (n, i, p) = (n1, i1, p1)) ->
  in_int (2 * (i - 1)) ->
  reflects (n, i, p) (mirror2 chk (mk_sizeT2 n0 i0 p0 n1 i1 p1) d).
Proof.
  intros H0 H1 Hd H2. rewrite mk_sizeT2_fits by assumption.
  assert (Hf : dim_fits (n, i, p)) by (destruct Hd as [[_ ->]|[_ ->]]; assumption).
  apply reflects_of; [assumption| |assumption].
  intros fl.
  set (s := mkSize2 (i0, i1) (n0, n1) (p0, p1)).
  assert (HF : Forall dim_fits (shape2 s)) by (apply Forall_two; assumption).
  assert (E : dimof2 s d = (n, i, p)) by (destruct Hd as [[-> ->]|[-> ->]]; reflexivity).
  assert (Hd' : 0 <= d < 2) by (destruct Hd as [[-> _]|[-> _]]; lia).
  pose proof (dim_facts2 chk s d Hd' HF) as F. rewrite E in F. destruct F as (_ & _ & _ & F).
  destruct (F RIN) as (_ & _ & _ & _ & F'). apply F'.
Qed.

Lemma mirror_D3 chk n0 i0 p0 n1 i1 p1 n2 i2 p2 d n i p :
  dim_fits (n0, i0, p0) -> dim_fits (n1, i1, p1) -> dim_fits (n2, i2, p2) ->
  (d = 0 /\ (n, i, p) = (n0, i0, p0)) \/ (d = 1 /\ (n, i, p) = (n1, i1, p1)) \/
  (d = 2 /\ (n, i, p) = (n2, i2, p2)) ->
  in_int (2 * (i - 1)) ->
  reflects (n, i, p) (mirror3 chk (mk_sizeT3 n0 i0 p0 n1 i1 p1 n2 i2 p2) d).
Proof.
  intros H0 H1 H2 Hd Hi. rewrite mk_sizeT3_fits by assumption.
  assert (Hf : dim_fits (n, i, p)) by (destruct Hd as [[_ ->]|[[_ ->]|[_ ->]]]; assumption).
  apply reflects_of; [assumption| |assumption].
  intros fl.
  set (s := mkSize3 (mkI3 i0 i1 i2) (mkI3 n0 n1 n2) (mkI3 p0 p1 p2)).
  assert (HF : Forall dim_fits (shape3 s)) by (apply Forall_three; assumption).
  assert (E : dimof3 s d = (n, i, p)) by (destruct Hd as [[-> ->]|[[-> ->]|[-> ->]]]; reflexivity).
  assert (Hd' : 0 <= d < 3) by (destruct Hd as [[-> _]|[[-> _]|[-> _]]]; lia).
  pose proof (dim_facts3 chk s d Hd' HF) as F. rewrite E in F. destruct F as (_ & _ & _ & F).
  destruct (F RIN) as (_ & _ & _ & _ & F'). apply F'.
Qed.

(** ** C07 *)

Lemma translates_of g (last : res Z) :
  dim_fits g -> last = Ok (snd (region g RIN) - 1) ->
  translates g (fun fl ii => let* sg := ineg (fl_sign fl) in
                let* l := last in let* x := imul sg l in iadd x ii).
Proof.
  intros F B. destruct g as [[n i] p]. unfold dim_fits in F. cbn [region snd] in B.
  set (m := fun fl ii => let* sg := ineg (fl_sign fl) in
                let* l := last in let* x := imul sg l in iadd x ii).
  assert (E : forall fl ii, m fl ii = ck (- fl_sign fl * (i - 1) + ii)).
  { intros fl ii. unfold m. rewrite B. unfold ineg, imul, iadd.
    destruct fl; cbn [fl_sign]; ckgo; reflexivity. }
  unfold translates.
  split; [|split; [|split; [|split; [|split; [|split; [|split]]]]]].
  - intros x Hx. rewrite E, ck_ok; cbn [fl_sign]; [f_equal; lia | unfold in_int in *; lia].
  - intros x Hx. rewrite E, ck_ok; cbn [fl_sign]; [f_equal; lia | unfold in_int in *; lia].
  - intros x y Hx. rewrite !E; cbn [fl_sign]. split; intros H; apply ck_inv in H; destruct H as [-> H];
      rewrite ck_ok by (unfold in_int in *; lia); f_equal; lia.
  - rewrite E, ck_ok; cbn [fl_sign]; [f_equal; lia | unfold in_int in *; lia].
  - rewrite E, ck_ok; cbn [fl_sign]; [f_equal; lia | unfold in_int in *; lia].
  - intros Hn x Hx. rewrite E, ck_ok; cbn [fl_sign]; [eexists; split; [reflexivity|] | unfold in_int in *]; lia.
  - intros Hn x Hx. rewrite E, ck_ok; cbn [fl_sign]; [eexists; split; [reflexivity|] | unfold in_int in *]; lia.
  - intros x Hx. rewrite E, ck_ok; cbn [fl_sign]; [f_equal; lia | unfold in_int in *; lia].
Qed.

Lemma periodic_D1 chk n i p :
  dim_fits (n, i, p) -> translates (n, i, p) (periodic1 chk (mk_sizeT1 n i p) 0).
Proof.
  intros H. rewrite mk_sizeT1_fits by assumption.
  apply translates_of; [assumption|].
  destruct (dim_facts1 chk n i p H) as (_ & _ & _ & F).
  destruct (F RIN) as (_ & _ & _ & F' & _). apply F'.
Qed.

Lemma periodic_D2 chk n0 i0 p0 n1 i1 p1 d n i p :
  dim_fits (n0, i0, p0) -> dim_fits (n1, i1, p1) ->
  (d = 0 /\ (n, i, p) = (n0, i0, p0)) \/ (d = 1 /\ (n, i, p) = (n1, i1, p1)) ->
  translates (n, i, p) (periodic2 chk (mk_sizeT2 n0 i0 p0 n1 i1 p1) d).
Proof.
  intros H0 H1 Hd. rewrite mk_sizeT2_fits by assumption.
  assert (Hf : dim_fits (n, i, p)) by (destruct Hd as [[_ ->]|[_ ->]]; assumption).
  apply translates_of; [assumption|].
  set (s := mkSize2 (i0, i1) (n0, n1) (p0, p1)).
  assert (HF : Forall dim_fits (shape2 s)) by (apply Forall_two; assumption).
  assert (E : dimof2 s d = (n, i, p)) by (destruct Hd as [[-> ->]|[-> ->]]; reflexivity).
  assert (Hd' : 0 <= d < 2) by (destruct Hd as [[-> _]|[-> _]]; lia).
  pose proof (dim_facts2 chk s d Hd' HF) as F. rewrite E in F. destruct F as (_ & _ & _ & F).
  destruct (F RIN) as (_ & _ & _ & F' & _). apply F'.
Qed.

Lemma periodic_D3 chk n0 i0 p0 n1 i1 p1 n2 i2 p2 d n i p :
  dim_fits (n0, i0, p0) -> dim_fits (n1, i1, p1) -> dim_fits (n2, i2, p2) ->
  (d = 0 /\ (n, i, p) = (n0, i0, p0)) \/ (d = 1 /\ (n, i, p) = (n1, i1, p1)) \/
  (d = 2 /\ (n, i, p) = (n2, i2, p2)) ->
  translates (n, i, p) (periodic3 chk (mk_sizeT3 n0 i0 p0 n1 i1 p1 n2 i2 p2) d).
Proof.
  intros H0 H1 H2 Hd. rewrite mk_sizeT3_fits by assumption.
  assert (Hf : dim_fits (n, i, p)) by (destruct Hd as [[_ ->]|[[_ ->]|[_ ->]]]; assumption).
  apply translates_of; [assumption|].
  set (s := mkSize3 (mkI3 i0 i1 i2) (mkI3 n0 n1 n2) (mkI3 p0 p1 p2)).
  assert (HF : Forall dim_fits (shape3 s)) by (apply Forall_three; assumption).
  assert (E : dimof3 s d = (n, i, p)) by (destruct Hd as [[-> ->]|[[-> ->]|[-> ->]]]; reflexivity).
  assert (Hd' : 0 <= d < 3) by (destruct Hd as [[-> _]|[[-> _]|[-> _]]]; lia).
  pose proof (dim_facts3 chk s d Hd' HF) as F. rewrite E in F. destruct F as (_ & _ & _ & F).
  destruct (F RIN) as (_ & _ & _ & F' & _). apply F'.
Qed.

(** ** C08 *)

Lemma flag_region_conversions :
  (forall f, f_c (f_c f) = f) /\ f_c FN = FP /\ f_c FC = FC /\
  (forall r r', r_c r = Some r' -> r_c r' = Some r) /\ r_c RN = Some RP /\ r_c RIN = Some RIN /\
  (forall f, r_f (f_r f) = Some f) /\
  (forall r f, r_f r = Some f -> f_r f = r) /\
  (forall f, f_r_c f = f_r (f_c f)) /\ (forall f, r_c (f_r f) = Some (f_r_c f)) /\
  (forall r f, r_f_c r = Some f <-> r_f r = Some (f_c f)) /\
  (forall r, part r <-> exists f, r_f r = Some f) /\
  (forall f, fl_sign (f_c f) = - fl_sign f) /\
  (forall f, fl_sign f = match f_r f with RN => -1 | RIN => 0 | RP => 1 | RALL => 0 end) /\
  (forall f, fl_offset f = if 0 <? fl_sign f then 1 else 0).
Proof.
  unfold part.
  repeat match goal with |- _ /\ _ => split end; try reflexivity;
  intros; repeat match goal with
  | f : flag |- _ => destruct f
  | r : ra |- _ => destruct r
  end; cbn in *; try congruence;
  try (split; intros H; congruence);
  first [ solve [split; [intros _; eauto|intros _; auto]]
        | solve [split; [intros [H|[H|H]]; discriminate | intros [? H]; discriminate]] ].
Qed.

(** ** Leftovers *)

Lemma empty_overlap_witness :
  exists a b : rangeT1,
    box_fits (faces1 a) /\ box_fits (faces1 b) /\ is_overlap1 true a b = Ok true /\
    ~ exists q, in_box (faces1 a) q /\ in_box (faces1 b) q.
Proof.
  exists (mkRange1 3 0), (mkRange1 0 10). unfold box_fits, faces1. cbn [r1_begin r1_size].
  split; [repeat constructor; unfold in_int; cbn; lia|].
  split; [repeat constructor; unfold in_int; cbn; lia|].
  split; [reflexivity|]. intros [q [H _]]. apply in_box_1 in H.
  destruct H as (x & -> & H). cbn in H. lia.
Qed.

Lemma overlap_throws_iff :
  (forall a b, overlap1 true a b = Err EOverlapNotFound <-> is_overlap1 true a b = Ok false) /\
  (forall a b, overlap2 true a b = Err EOverlapNotFound <-> is_overlap2 true a b = Ok false) /\
  (forall a b, overlap3 true a b = Err EOverlapNotFound <-> is_overlap3 true a b = Ok false).
Proof.
  split; [|split]; intros a b.
  - unfold overlap1. destruct (is_overlap1 true a b) as [[]| |] eqn:E; cbn [rbind].
    + split; intros H; [|discriminate]. exfalso. revert H. unfold isub. rs. noerr2.
    + split; auto.
    + exfalso. revert E. unfold is_overlap1, sc_or. rs. noerr2.
    + split; discriminate.
  - unfold overlap2. destruct (is_overlap2 true a b) as [[]| |] eqn:E; cbn [rbind].
    + split; intros H; [|discriminate]. exfalso. revert H. unfold isub. rs. noerr2.
    + split; auto.
    + exfalso. revert E. unfold is_overlap2, sc_or. rs. noerr2.
    + split; discriminate.
  - unfold overlap3. destruct (is_overlap3 true a b) as [[]| |] eqn:E; cbn [rbind].
    + split; intros H; [|discriminate]. exfalso. revert H. unfold isub. rs. noerr2.
    + split; auto.
    + exfalso. revert E. unfold is_overlap3, sc_or. rs. noerr2.
    + split; discriminate.
Qed.

Lemma check_range_unchecked d l ii off :
  (forall r, check_range1 false r d l ii off = Ok tt) /\
  (forall r, check_range2 false r d l ii off = Ok tt) /\
  (forall r, check_range3 false r d l ii off = Ok tt).
Proof. repeat split. Qed.
