(** Describing a zone by an array. *)

From Coq Require Import ZArith Ascii String List Bool Lia.
From Verif Require Import Base M_Flags M_Loop M_RS1 M_RS2 M_RS3 M_Bytes M_TecZone M_TecFile Spec_Tec Spec_Plt
  M_Heap M_PD1 M_PD2 M_PD3 M_World M_Read M_Describe
  Spec Spec_Loop Spec_Array Spec_Hist Spec_Reach Spec_Read Spec_Describe
  L_Base L_RS L_Range L_Rep L_Kind L_World L_Access L_Round.
Import ListNotations.
Open Scope list_scope.
Open Scope Z_scope.

Lemma ssizes g (size : ra -> res Z) b e la bo i n p :
  dim_facts g b e size la bo i n p -> let '(n, i, p) := g in
  size RALL = Ok (n + i + p) /\ size RN = Ok n /\ size RP = Ok p.
Proof.
  destruct g as [[n' i'] p']. intros (_ & _ & _ & H).
  destruct (H RALL) as (_ & _ & H1 & _), (H RN) as (_ & _ & H2 & _), (H RP) as (_ & _ & H3 & _).
  rewrite H1, H2, H3. cbn [region fst snd]. repeat split; f_equal; lia.
Qed.

(** Entry [i] of three numbers replaced. *)
Definition put3 (v : v3) (i : nat) (x : Z) : v3 :=
  match i with O => mk3 x (x1 v) (x2 v) | S O => mk3 (x0 v) x (x2 v) | _ => mk3 (x0 v) (x1 v) x end.

Lemma describe_dim_eq D size d z n i p j : size d RALL = Ok (n + i + p) /\ size d RN = Ok n /\ size d RP = Ok p ->
  shape_ok (n, i, p) -> uwrap (D - 1 - d) = Z.of_nat j -> (j < 3)%nat ->
  describe_dim D size d z =
    Ok (set_zend (set_zbegin (set_zmax z (put3 (z_max z) j (n + i + p))) (put3 (z_begin z) j n)) (put3 (z_end z) j p)).
Proof.
  intros (E1 & E2 & E3) Hs Hj Hlt. unfold shape_ok in Hs. unfold describe_dim, set_C. rewrite E1, E2, E3, Hj. cbn [rbind].
  rewrite !u2i_small by lia. destruct j as [|[|[|j]]]; [reflexivity..|lia].
Qed.

Ltac described_tac z :=
  unfold described; destruct z as [? ? ? [? ? ?] ? [? ? ?] [? ? ?] ? ? ?];
  cbn [put3 set_zmax set_zbegin set_zend z_name z_strand z_time z_max z_skip z_begin z_end z_aux z_data z_echo x0 x1 x2];
  repeat split; reflexivity.

Lemma describe_shape chk o z : Forall shape_ok (m_size o) -> exists z', describe chk o z = Ok z' /\ described (m_size o) z z'.
Proof.
  intros H. destruct o as [o|o|o]; cbn [m_size describe] in *.
  - destruct (pd1_size o) as [i n p]. unfold shape1 in *. cbn [s1_n s1_in s1_p] in *.
    inversion_clear H as [|? ? H0 _]. assert (Hf : dim_fits (n, i, p)) by (unfold shape_ok, dim_fits in *; lia).
    destruct (ssizes _ _ _ _ _ _ _ _ _ (dim_facts1 chk n i p Hf)) as (E1 & E2 & E3).
    unfold shape_ok in H0. unfold describe1. rewrite E1, E2, E3. cbn [rbind]. rewrite !u2i_small by lia.
    unfold v3_set. cbn [Z.eqb rbind]. eexists. split; [reflexivity|]. described_tac z.
  - assert (Hf : Forall dim_fits (shape2 (pd2_size o))).
    { eapply Forall_impl; [|exact H]. intros [[n i] p]. unfold shape_ok, dim_fits. lia. }
    pose proof (ssizes _ _ _ _ _ _ _ _ _ (dim_facts2 chk (pd2_size o) 0 ltac:(lia) Hf)) as A0.
    pose proof (ssizes _ _ _ _ _ _ _ _ _ (dim_facts2 chk (pd2_size o) 1 ltac:(lia) Hf)) as A1.
    unfold dimof2 in *. change (Z.to_nat 0) with 0%nat in *. change (Z.to_nat 1) with 1%nat in *.
    destruct (pd2_size o) as [[i0 i1] [n0 n1] [p0 p1]].
    unfold shape2 in *. cbn [fst snd s2_in s2_n s2_p nth] in *.
    inversion_clear H as [|? ? H0 H']. inversion_clear H' as [|? ? H1 _].
    unfold describe2. rewrite (describe_dim_eq 2 _ 0 z n0 i0 p0 1 A0 H0 eq_refl) by lia. cbn [rbind].
    rewrite (describe_dim_eq 2 _ 1 _ n1 i1 p1 0 A1 H1 eq_refl) by lia.
    eexists. split; [reflexivity|]. described_tac z.
  - assert (Hf : Forall dim_fits (shape3 (pd3_size o))).
    { eapply Forall_impl; [|exact H]. intros [[n i] p]. unfold shape_ok, dim_fits. lia. }
    pose proof (ssizes _ _ _ _ _ _ _ _ _ (dim_facts3 chk (pd3_size o) 0 ltac:(lia) Hf)) as A0.
    pose proof (ssizes _ _ _ _ _ _ _ _ _ (dim_facts3 chk (pd3_size o) 1 ltac:(lia) Hf)) as A1.
    pose proof (ssizes _ _ _ _ _ _ _ _ _ (dim_facts3 chk (pd3_size o) 2 ltac:(lia) Hf)) as A2.
    unfold dimof3 in *. change (Z.to_nat 0) with 0%nat in *. change (Z.to_nat 1) with 1%nat in *. change (Z.to_nat 2) with 2%nat in *.
    destruct (pd3_size o) as [[i0 i1 i2] [n0 n1 n2] [p0 p1 p2]].
    unfold shape3 in *. cbn [c0 c1 c2 s3_in s3_n s3_p nth] in *.
    inversion_clear H as [|? ? H0 H']. inversion_clear H' as [|? ? H1 H'']. inversion_clear H'' as [|? ? H2 _].
    unfold describe3. rewrite (describe_dim_eq 3 _ 0 z n0 i0 p0 2 A0 H0 eq_refl) by lia. cbn [rbind].
    rewrite (describe_dim_eq 3 _ 1 _ n1 i1 p1 1 A1 H1 eq_refl) by lia. cbn [rbind].
    rewrite (describe_dim_eq 3 _ 2 _ n2 i2 p2 0 A2 H2 eq_refl) by lia.
    eexists. split; [reflexivity|]. described_tac z.
Qed.

Section Reached.
Context {V : Type}.

Lemma reached_shapes F h (w : world V) aw a k o : after F h w aw -> find w a = Some (k, o) -> Forall shape_ok (m_size o).
Proof.
  intros HA Hf. destruct (after_find _ _ _ _ _ _ _ HA Hf) as (x & own & lk & _ & _ & Hr & _).
  rewrite (rep_size _ _ _ _ _ Hr). destruct x as [|gs f|gs nb]; cbn [a_shape].
  - destruct k; repeat constructor; unfold shape_ok; lia.
  - apply Hr.
  - apply Hr.
Qed.

Lemma describe_reached F h (w : world V) aw a k o chk z : after F h w aw -> find w a = Some (k, o) ->
  exists z', describe chk o z = Ok z' /\ described (m_size o) z z'.
Proof. intros HA Hf. apply describe_shape. eapply reached_shapes; eauto. Qed.
End Reached.

(** ** The interior *)

Lemma v3_of_list3 v a b c : list3 v = [a; b; c] -> v = mk3 a b c.
Proof. destruct v. cbn. intros E. now injection E as -> -> ->. Qed.

Lemma described_interior ls gs name z : length gs = length ls -> (length ls = 1 \/ length ls = 2 \/ length ls = 3)%nat ->
  described gs (new_zone name) z -> (takes_interior ls gs z <-> Forall (fun l => l = center) ls).
Proof.
  intros HL HD (E1 & E2 & E3 & E4 & _). unfold takes_interior. rewrite E1, E2, E3, E4.
  destruct HD as [D|[D|D]]; destruct ls as [|l0 [|l1 [|l2 [|? ?]]]]; try discriminate;
    destruct gs as [|[[n0 i0] p0] [|[[n1 i1] p1] [|[[n2 i2] p2] [|? ?]]]]; try discriminate;
    cbn [combine map rev app pad firstn extent length skipn list3 new_zone z_max z_begin z_end z_skip x0 x1 x2];
    (split; [intros (H & _); injection H; intros|intros H]);
    repeat match goal with H : Forall _ (_ :: _) |- _ => inversion H; clear H; subst end.
  all: try (cbn [loc_val]; rewrite !Z.add_0_r; repeat split; reflexivity).
  all: repeat (match goal with |- Forall _ _ => constructor end).
  all: match goal with |- ?l = center => destruct l; [reflexivity|exfalso; cbn [loc_val] in *; lia] end.
Qed.

Lemma describe_interior {V} F h (w : world V) aw a k o chk name z : after F h w aw -> find w a = Some (k, o) ->
  describe chk o (new_zone name) = Ok z ->
  (takes_interior (k_locs k) (m_size o) z <-> Forall (fun l => l = center) (k_locs k)).
Proof.
  intros HA Hf E. destruct (describe_reached F h w aw a k o chk (new_zone name) HA Hf) as (z' & E' & H).
  rewrite E in E'. injection E' as <-. destruct (after_find _ _ _ _ _ _ _ HA Hf) as (x & own & lk & _ & _ & Hr & _).
  eapply described_interior; [eapply rep_lengths; eauto|apply k_dims|exact H].
Qed.
