(** Copies between arrays. *)

From Coq Require Import ZArith List Bool Lia.
From Verif Require Import Base M_Flags M_Loop M_RS1 M_RS2 M_RS3 M_Heap M_PD1 M_PD2 M_PD3 M_World
  Spec Spec_Loop Spec_Array Spec_Hist
  L_Base L_RS L_Range L_Loop L_Heap L_Lin L_Rep L_PD1 L_PD2 L_PD3 L_Kind.
Import ListNotations.
Open Scope Z_scope.

Lemma meets_meetb f g : meets f g = meetb f g.
Proof.
  unfold meets, meetb. rewrite Z.geb_leb, !Z.leb_antisym.
  now destruct (fst f <? snd g), (fst g <? snd f).
Qed.

(** The zone written in one dimension, and where it is read. *)
Lemma cap_ordered f g : fst f <= snd f -> fst g <= snd g -> meetb f g = true -> fst (cap f g) <= snd (cap f g).
Proof.
  intros Hf Hg H. apply andb_prop in H. destruct H as [H1 H2]. zcmp. unfold cap. cbn [fst snd]. lia.
Qed.

Section Copy.
Context {V : Type}.
Implicit Types m : mem V.

(** One element. *)
Definition copy_one (d s : obj) (v : list Z) (n : Z) (q : list Z) : M (mem V) unit :=
  do* x := gets (fun m => let* p := m_lval m s n (vsub q v) in load m p) in
  do* p := gets (fun m => m_lval m d n q) in
  store p x.

Definition copy_run (k : kind) (d s : obj) (B : box) (v : list Z) : M (mem V) unit :=
  run (points B) (fun q => for_uint 0 (k_N k) (fun n => copy_one d s v n q)).

Lemma for_uint_ext {S} N (f g : Z -> M S unit) s :
  0 <= N < UINT_MOD -> (forall n s, f n s = g n s) -> for_uint 0 N f s = for_uint 0 N g s.
Proof. intros HN H. rewrite !for_uint_run by lia. apply run_ext. auto. Qed.

(** What one dimension of a copy computes; the range of the destination is
    [b, z] (begin, size), that of the source [b', z']. *)
Definition pF (b z : Z) : Z * Z := (b, b + z).
Definition pG (b' z' A a : Z) : Z * Z := (b' + (A - a), b' + (A - a) + z').
Definition pW (b z A a : Z) (l : loc) : Z * Z :=
  (b + (a - A) - loc_val l, b + (a - A) - loc_val l + (z + loc_val l + loc_val l)).
Definition pC (b z b' z' A a : Z) : Z * Z := cap (pF b z) (pG b' z' A a).

Record plan (b z b' z' A a : Z) (l : loc) : Prop := {
  dp_k : isub A a = Ok (A - a);
  dp_k' : isub a A = Ok (a - A);
  dp_tran : iadd b' (A - a) = Ok (b' + (A - a));
  dp_tran' : iadd b (a - A) = Ok (b + (a - A));
  dp_neg : ineg (loc_val l) = Ok (- loc_val l);
  dp_tail : isub z (- loc_val l) = Ok (z + loc_val l);
  dp_head : iadd (b + (a - A)) (- loc_val l) = Ok (b + (a - A) - loc_val l);
  dp_head' : isub (z + loc_val l) (- loc_val l) = Ok (z + loc_val l + loc_val l);
  dp_f : in_int b /\ in_int (b + z) /\ in_int z;
  dp_g : in_int (b' + (A - a)) /\ in_int (b' + (A - a) + z') /\ in_int z';
  dp_w : in_int (b + (a - A) - loc_val l) /\
         in_int (b + (a - A) - loc_val l + (z + loc_val l + loc_val l)) /\ in_int (z + loc_val l + loc_val l);
  dp_ov : meetb (pF b z) (pG b' z' A a) = true ->
          let c := pC b z b' z' A a in
          fst c <= snd c /\ in_int (fst c) /\ in_int (snd c) /\ in_int (snd c - fst c) /\
          isub (snd c - fst c) (- loc_val l) = Ok (snd c - fst c + loc_val l) /\
          in_int (snd c + loc_val l) /\
          (forall x, fst c <= x < snd c + loc_val l -> iadd x (a - A) = Ok (x - (A - a)))
}.

Lemma dim_copy_plan b z b' z' A a l : dim_copy_fits (b, b + z) (b', b' + z') A a -> plan b z b' z' A a l.
Proof.
  unfold dim_copy_fits. cbn [fst snd]. pose proof (loc_val_range l) as Hl.
  intros (H1 & H2 & H3 & H4 & H5 & H6 & H7 & H8 & H9 & H10 & H11 & H12 & H13 & H14 & H15 & H16 & H17).
  unfold in_int in *. constructor; unfold in_int; try (arith; f_equal; lia); try lia.
  intros Hm. apply andb_prop in Hm. destruct Hm as [Hm1 Hm2]. unfold pF, pG in *. cbn [fst snd] in *. zcmp.
  unfold pC, cap, pF, pG. cbn [fst snd].
  split; [lia|]. split; [lia|]. split; [lia|]. split; [lia|].
  split; [arith; f_equal; lia|]. split; [lia|].
  intros x Hx. arith. f_equal. lia.
Qed.

Lemma pG_eq b' z' A a : (b' + (A - a), b' + z' + (A - a)) = pG b' z' A a.
Proof. unfold pG. f_equal. lia. Qed.
Lemma pW_eq b z A a l : (b + (a - A) - loc_val l, b + z + (a - A) + loc_val l) = pW b z A a l.
Proof. unfold pW. f_equal. lia. Qed.
Lemma pC_re c : (fst c, fst c + (snd c - fst c)) = c :> Z * Z.
Proof. destruct c. cbn [fst snd]. f_equal. lia. Qed.

Lemma c_end (c : Z * Z) l : fst c + (snd c - fst c + l) = snd c + l.
Proof. lia. Qed.

Ltac boxfit :=
  unfold box_fits, faces1, faces2, faces3;
  repeat first [apply Forall_nil | apply Forall_cons];
  cbn [fst snd r1_begin r1_size r2_begin r2_size r3_begin r3_size c0 c1 c2]; unfold in_int in *; lia.

Lemma copy1_eq chk N l0 d s same b0 z0 b0' z0' A0 a0 m :
  1 <= N <= INT_MAX ->
  dim_copy_fits (b0, b0 + z0) (b0', b0' + z0') A0 a0 ->
  let err := copy_error [l0] same [(b0, b0 + z0)] [(b0', b0' + z0')] [A0] [a0] in
  (chk = true \/ err = None) ->
  copy_from1 chk N l0 d s same (mkRange1 b0 z0) (mkRange1 b0' z0') A0 a0 m =
  match err with
  | Some e => Thr m e
  | None => copy_run (K1 N l0) (O1 d) (O1 s) (copy_box [l0] [(b0, b0 + z0)] [(b0', b0' + z0')] [A0] [a0]) (vsub [A0] [a0]) m
  end.
Proof.
  intros HN HF0 err Hchk.
  destruct (dim_copy_plan _ _ _ _ _ _ l0 HF0) as [K0 K0' T0 T0' N0 U0 H0 H0' F0 G0 W0 V0].
  clear HF0.
  unfold copy_from1.
  rewrite K0, bind_lift_ok.
  unfold tran1 at 1. cbn [r1_begin r1_size fst snd c0 c1 c2].
  rewrite T0. cbn [rbind].
  rewrite bind_lift_ok.
  assert (He : err = if negb (meetb (pF b0 z0) (pG b0' z0' A0 a0)) then Some EOverlapNotFound else
                     if same && (meetb (pW b0 z0 A0 a0 l0) (pC b0 z0 b0' z0' A0 a0)) then Some ECopyOverlap else None).
  { unfold err, copy_error, meetsb, shift_box, vsub, widen, caps. cbn [combine map forallb fst snd].
    rewrite !andb_true_r, !pG_eq, !pW_eq. reflexivity. }
  assert (Hf : box_fits (faces1 (mkRange1 b0 z0))) by boxfit.
  assert (Hg : box_fits (faces1 (mkRange1 (b0' + (A0 - a0)) z0'))) by boxfit.
  assert (Hov : overlap1 chk (mkRange1 b0 z0) (mkRange1 (b0' + (A0 - a0)) z0') =
    if meetb (pF b0 z0) (pG b0' z0' A0 a0) then Ok (mkRange1 (fst (pC b0 z0 b0' z0' A0 a0)) (snd (pC b0 z0 b0' z0' A0 a0) - fst (pC b0 z0 b0' z0' A0 a0))) else Err EOverlapNotFound).
  { destruct (meetb (pF b0 z0) (pG b0' z0' A0 a0)) eqn:Hm.
    - pose proof (V0 eq_refl) as X0.
      rewrite overlap1_eq; [|assumption|assumption|apply X0].
      unfold faces1. cbn [r1_begin r1_size fst snd c0 c1 c2 nth]. rewrite !meets_meetb.
      change (b0, b0 + z0) with (pF b0 z0). change (b0' + (A0 - a0), b0' + (A0 - a0) + z0') with (pG b0' z0' A0 a0).
      rewrite Hm. cbn [andb negb]. rewrite andb_false_r. reflexivity.
    - destruct Hchk as [->|Hchk]; [|rewrite Hchk in He; discriminate].
      unfold overlap1. rewrite is_overlap1_eq by assumption.
      unfold faces1. cbn [r1_begin r1_size fst snd c0 c1 c2 nth]. rewrite !meets_meetb.
      unfold pF, pG in Hm. rewrite Hm. reflexivity. }
  rewrite Hov. clear Hov. destruct (meetb (pF b0 z0) (pG b0' z0' A0 a0)) eqn:Hm.
  2:{ cbn [negb] in He. rewrite He. reflexivity. }
  cbn [negb] in He.
  pose proof (V0 eq_refl) as X0. clear V0.
  cbv zeta in X0.
  assert (EB : copy_box [l0] [(b0, b0 + z0)] [(b0', b0' + z0')] [A0] [a0] = [(fst (pC b0 z0 b0' z0' A0 a0), snd (pC b0 z0 b0' z0' A0 a0) + loc_val l0)]).
  { unfold copy_box, widen_high, caps, shift_box, vsub. cbn [combine map fst snd]. rewrite !pG_eq. reflexivity. }
  rewrite EB. clear EB.
  set (C0 := pC b0 z0 b0' z0' A0 a0) in *. clearbody C0.
  destruct X0 as (X0 & Y0 & Z0 & Q0 & S0 & E0 & L0).
  rewrite bind_lift_ok.
  match goal with |- bind (lift ?X) _ _ = _ =>
    assert (HX : X = match err with Some e => Err e | None => Ok tt end) end.
  { destruct chk.
    - rewrite K0'; cbn [rbind].
      unfold tran1. cbn [r1_begin r1_size fst snd c0 c1 c2]. rewrite T0'; cbn [rbind].
      rewrite N0; cbn [rbind].
      unfold cut_tail1. cbn [r1_begin r1_size fst snd c0 c1 c2]. rewrite U0; cbn [rbind].
      unfold cut_head1. cbn [r1_begin r1_size fst snd c0 c1 c2]. rewrite H0; cbn [rbind]. rewrite H0'; cbn [rbind].
      rewrite He. destruct same; [|reflexivity]. cbn [andb].
      rewrite is_overlap1_eq; [|boxfit|boxfit].
      unfold faces1. cbn [r1_begin r1_size fst snd c0 c1 c2 nth rbind]. rewrite !pC_re, !meets_meetb. unfold pW.
      match goal with |- (if ?c then _ else _) = _ => destruct c end; reflexivity.
    - destruct Hchk as [Hchk|Hchk]; [discriminate|]. now rewrite Hchk. }
  rewrite HX. clear HX. destruct err as [e|]; [reflexivity|]. rewrite bind_lift_ok.
  rewrite N0, bind_lift_ok.
  unfold cut_tail1. cbn [r1_begin r1_size fst snd c0 c1 c2]. rewrite S0; cbn [rbind]. rewrite bind_lift_ok.
  rewrite K0', bind_lift_ok.
  rewrite rbegin1_0, bind_lift_ok, rend1_0. cbn [r1_begin r1_size fst snd c0 c1 c2]. rewrite c_end, ck_ok by assumption. rewrite bind_lift_ok.
  unfold copy_run.
  pose proof (loc_val_range l0).
  rewrite for_int_run by lia. rewrite run_points_cons. cbn [fst snd].
  apply run_ext. intros x0 s0 Hx0. apply in_zrange in Hx0.
  rewrite run_points_nil. cbn [k_N]. apply for_uint_ext; [lia|]. intros n s''.
  rewrite (L0 x0 Hx0), bind_lift_ok. reflexivity.
Qed.

Lemma copy2_eq chk N l0 l1 d s same b0 z0 b0' z0' A0 a0 b1 z1 b1' z1' A1 a1 m :
  1 <= N <= INT_MAX ->
  dim_copy_fits (b0, b0 + z0) (b0', b0' + z0') A0 a0 ->
  dim_copy_fits (b1, b1 + z1) (b1', b1' + z1') A1 a1 ->
  let err := copy_error [l0; l1] same [(b0, b0 + z0); (b1, b1 + z1)] [(b0', b0' + z0'); (b1', b1' + z1')] [A0; A1] [a0; a1] in
  (chk = true \/ err = None) ->
  copy_from2 chk N l0 l1 d s same (mkRange2 (b0, b1) (z0, z1)) (mkRange2 (b0', b1') (z0', z1')) A0 A1 a0 a1 m =
  match err with
  | Some e => Thr m e
  | None => copy_run (K2 N l0 l1) (O2 d) (O2 s) (copy_box [l0; l1] [(b0, b0 + z0); (b1, b1 + z1)] [(b0', b0' + z0'); (b1', b1' + z1')] [A0; A1] [a0; a1]) (vsub [A0; A1] [a0; a1]) m
  end.
Proof.
  intros HN HF0 HF1 err Hchk.
  destruct (dim_copy_plan _ _ _ _ _ _ l0 HF0) as [K0 K0' T0 T0' N0 U0 H0 H0' F0 G0 W0 V0].
  clear HF0.
  destruct (dim_copy_plan _ _ _ _ _ _ l1 HF1) as [K1 K1' T1 T1' N1 U1 H1 H1' F1 G1 W1 V1].
  clear HF1.
  unfold copy_from2.
  rewrite K0, bind_lift_ok.
  rewrite K1, bind_lift_ok.
  unfold tran2 at 1. cbn [r2_begin r2_size fst snd c0 c1 c2].
  rewrite T0. cbn [rbind].
  rewrite T1. cbn [rbind].
  rewrite bind_lift_ok.
  assert (He : err = if negb (meetb (pF b0 z0) (pG b0' z0' A0 a0) && (meetb (pF b1 z1) (pG b1' z1' A1 a1))) then Some EOverlapNotFound else
                     if same && (meetb (pW b0 z0 A0 a0 l0) (pC b0 z0 b0' z0' A0 a0) && (meetb (pW b1 z1 A1 a1 l1) (pC b1 z1 b1' z1' A1 a1))) then Some ECopyOverlap else None).
  { unfold err, copy_error, meetsb, shift_box, vsub, widen, caps. cbn [combine map forallb fst snd].
    rewrite !andb_true_r, !pG_eq, !pW_eq. reflexivity. }
  assert (Hf : box_fits (faces2 (mkRange2 (b0, b1) (z0, z1)))) by boxfit.
  assert (Hg : box_fits (faces2 (mkRange2 ((b0' + (A0 - a0)), (b1' + (A1 - a1))) (z0', z1')))) by boxfit.
  assert (Hov : overlap2 chk (mkRange2 (b0, b1) (z0, z1)) (mkRange2 ((b0' + (A0 - a0)), (b1' + (A1 - a1))) (z0', z1')) =
    if meetb (pF b0 z0) (pG b0' z0' A0 a0) && (meetb (pF b1 z1) (pG b1' z1' A1 a1)) then Ok (mkRange2 ((fst (pC b0 z0 b0' z0' A0 a0)), (fst (pC b1 z1 b1' z1' A1 a1))) ((snd (pC b0 z0 b0' z0' A0 a0) - fst (pC b0 z0 b0' z0' A0 a0)), (snd (pC b1 z1 b1' z1' A1 a1) - fst (pC b1 z1 b1' z1' A1 a1)))) else Err EOverlapNotFound).
  { destruct (meetb (pF b0 z0) (pG b0' z0' A0 a0) && (meetb (pF b1 z1) (pG b1' z1' A1 a1))) eqn:Hm.
    - apply andb_prop in Hm; destruct Hm as [Hm0 Hm1]. pose proof (V0 Hm0) as X0. pose proof (V1 Hm1) as X1.
      rewrite overlap2_eq; [|assumption|assumption|apply X0|apply X1].
      unfold faces2. cbn [r2_begin r2_size fst snd c0 c1 c2 nth]. rewrite !meets_meetb.
      change (b0, b0 + z0) with (pF b0 z0). change (b0' + (A0 - a0), b0' + (A0 - a0) + z0') with (pG b0' z0' A0 a0).
      change (b1, b1 + z1) with (pF b1 z1). change (b1' + (A1 - a1), b1' + (A1 - a1) + z1') with (pG b1' z1' A1 a1).
      rewrite Hm0, Hm1. cbn [andb negb]. rewrite andb_false_r. reflexivity.
    - destruct Hchk as [->|Hchk]; [|rewrite Hchk in He; discriminate].
      unfold overlap2. rewrite is_overlap2_eq by assumption.
      unfold faces2. cbn [r2_begin r2_size fst snd c0 c1 c2 nth]. rewrite !meets_meetb.
      unfold pF, pG in Hm. rewrite Hm. reflexivity. }
  rewrite Hov. clear Hov. destruct (meetb (pF b0 z0) (pG b0' z0' A0 a0) && (meetb (pF b1 z1) (pG b1' z1' A1 a1))) eqn:Hm.
  2:{ cbn [negb] in He. rewrite He. reflexivity. }
  cbn [negb] in He.
  apply andb_prop in Hm. destruct Hm as [Hm0 Hm1]. pose proof (V0 Hm0) as X0. pose proof (V1 Hm1) as X1. clear V0 V1.
  cbv zeta in X0, X1.
  assert (EB : copy_box [l0; l1] [(b0, b0 + z0); (b1, b1 + z1)] [(b0', b0' + z0'); (b1', b1' + z1')] [A0; A1] [a0; a1] = [(fst (pC b0 z0 b0' z0' A0 a0), snd (pC b0 z0 b0' z0' A0 a0) + loc_val l0); (fst (pC b1 z1 b1' z1' A1 a1), snd (pC b1 z1 b1' z1' A1 a1) + loc_val l1)]).
  { unfold copy_box, widen_high, caps, shift_box, vsub. cbn [combine map fst snd]. rewrite !pG_eq. reflexivity. }
  rewrite EB. clear EB.
  set (C0 := pC b0 z0 b0' z0' A0 a0) in *. clearbody C0.
  destruct X0 as (X0 & Y0 & Z0 & Q0 & S0 & E0 & L0).
  set (C1 := pC b1 z1 b1' z1' A1 a1) in *. clearbody C1.
  destruct X1 as (X1 & Y1 & Z1 & Q1 & S1 & E1 & L1).
  rewrite bind_lift_ok.
  match goal with |- bind (lift ?X) _ _ = _ =>
    assert (HX : X = match err with Some e => Err e | None => Ok tt end) end.
  { destruct chk.
    - rewrite K0'; cbn [rbind]. rewrite K1'; cbn [rbind].
      unfold tran2. cbn [r2_begin r2_size fst snd c0 c1 c2]. rewrite T0'; cbn [rbind]. rewrite T1'; cbn [rbind].
      rewrite N0; cbn [rbind]. rewrite N1; cbn [rbind].
      unfold cut_tail2. cbn [r2_begin r2_size fst snd c0 c1 c2]. rewrite U0; cbn [rbind]. rewrite U1; cbn [rbind].
      unfold cut_head2. cbn [r2_begin r2_size fst snd c0 c1 c2]. rewrite H0; cbn [rbind]. rewrite H0'; cbn [rbind]. rewrite H1; cbn [rbind]. rewrite H1'; cbn [rbind].
      rewrite He. destruct same; [|reflexivity]. cbn [andb].
      rewrite is_overlap2_eq; [|boxfit|boxfit].
      unfold faces2. cbn [r2_begin r2_size fst snd c0 c1 c2 nth rbind]. rewrite !pC_re, !meets_meetb. unfold pW.
      match goal with |- (if ?c then _ else _) = _ => destruct c end; reflexivity.
    - destruct Hchk as [Hchk|Hchk]; [discriminate|]. now rewrite Hchk. }
  rewrite HX. clear HX. destruct err as [e|]; [reflexivity|]. rewrite bind_lift_ok.
  rewrite N0, bind_lift_ok.
  rewrite N1, bind_lift_ok.
  unfold cut_tail2. cbn [r2_begin r2_size fst snd c0 c1 c2]. rewrite S0; cbn [rbind]. rewrite S1; cbn [rbind]. rewrite bind_lift_ok.
  rewrite K0', bind_lift_ok.
  rewrite K1', bind_lift_ok.
  rewrite rbegin2_0, bind_lift_ok, rend2_0. cbn [r2_begin r2_size fst snd c0 c1 c2]. rewrite c_end, ck_ok by assumption. rewrite bind_lift_ok.
  rewrite rbegin2_1, bind_lift_ok, rend2_1. cbn [r2_begin r2_size fst snd c0 c1 c2]. rewrite c_end, ck_ok by assumption. rewrite bind_lift_ok.
  unfold copy_run.
  pose proof (loc_val_range l0).
  pose proof (loc_val_range l1).
  rewrite for_int_run by lia. rewrite run_points_cons. cbn [fst snd].
  apply run_ext. intros x0 s0 Hx0. apply in_zrange in Hx0.
  rewrite for_int_run by lia. rewrite run_points_cons. cbn [fst snd].
  apply run_ext. intros x1 s1 Hx1. apply in_zrange in Hx1.
  rewrite run_points_nil. cbn [k_N]. apply for_uint_ext; [lia|]. intros n s''.
  rewrite (L0 x0 Hx0), bind_lift_ok. rewrite (L1 x1 Hx1), bind_lift_ok. reflexivity.
Qed.

Lemma copy3_eq chk N l0 l1 l2 d s same b0 z0 b0' z0' A0 a0 b1 z1 b1' z1' A1 a1 b2 z2 b2' z2' A2 a2 m :
  1 <= N <= INT_MAX ->
  dim_copy_fits (b0, b0 + z0) (b0', b0' + z0') A0 a0 ->
  dim_copy_fits (b1, b1 + z1) (b1', b1' + z1') A1 a1 ->
  dim_copy_fits (b2, b2 + z2) (b2', b2' + z2') A2 a2 ->
  let err := copy_error [l0; l1; l2] same [(b0, b0 + z0); (b1, b1 + z1); (b2, b2 + z2)] [(b0', b0' + z0'); (b1', b1' + z1'); (b2', b2' + z2')] [A0; A1; A2] [a0; a1; a2] in
  (chk = true \/ err = None) ->
  copy_from3 chk N l0 l1 l2 d s same (mkRange3 (mkI3 b0 b1 b2) (mkI3 z0 z1 z2)) (mkRange3 (mkI3 b0' b1' b2') (mkI3 z0' z1' z2')) A0 A1 A2 a0 a1 a2 m =
  match err with
  | Some e => Thr m e
  | None => copy_run (K3 N l0 l1 l2) (O3 d) (O3 s) (copy_box [l0; l1; l2] [(b0, b0 + z0); (b1, b1 + z1); (b2, b2 + z2)] [(b0', b0' + z0'); (b1', b1' + z1'); (b2', b2' + z2')] [A0; A1; A2] [a0; a1; a2]) (vsub [A0; A1; A2] [a0; a1; a2]) m
  end.
Proof.
  intros HN HF0 HF1 HF2 err Hchk.
  destruct (dim_copy_plan _ _ _ _ _ _ l0 HF0) as [K0 K0' T0 T0' N0 U0 H0 H0' F0 G0 W0 V0].
  clear HF0.
  destruct (dim_copy_plan _ _ _ _ _ _ l1 HF1) as [K1 K1' T1 T1' N1 U1 H1 H1' F1 G1 W1 V1].
  clear HF1.
  destruct (dim_copy_plan _ _ _ _ _ _ l2 HF2) as [K2 K2' T2 T2' N2 U2 H2 H2' F2 G2 W2 V2].
  clear HF2.
  unfold copy_from3.
  rewrite K0, bind_lift_ok.
  rewrite K1, bind_lift_ok.
  rewrite K2, bind_lift_ok.
  unfold tran3 at 1. cbn [r3_begin r3_size fst snd c0 c1 c2].
  rewrite T0. cbn [rbind].
  rewrite T1. cbn [rbind].
  rewrite T2. cbn [rbind].
  rewrite bind_lift_ok.
  assert (He : err = if negb (meetb (pF b0 z0) (pG b0' z0' A0 a0) && (meetb (pF b1 z1) (pG b1' z1' A1 a1) && (meetb (pF b2 z2) (pG b2' z2' A2 a2)))) then Some EOverlapNotFound else
                     if same && (meetb (pW b0 z0 A0 a0 l0) (pC b0 z0 b0' z0' A0 a0) && (meetb (pW b1 z1 A1 a1 l1) (pC b1 z1 b1' z1' A1 a1) && (meetb (pW b2 z2 A2 a2 l2) (pC b2 z2 b2' z2' A2 a2)))) then Some ECopyOverlap else None).
  { unfold err, copy_error, meetsb, shift_box, vsub, widen, caps. cbn [combine map forallb fst snd].
    rewrite !andb_true_r, !pG_eq, !pW_eq. reflexivity. }
  assert (Hf : box_fits (faces3 (mkRange3 (mkI3 b0 b1 b2) (mkI3 z0 z1 z2)))) by boxfit.
  assert (Hg : box_fits (faces3 (mkRange3 (mkI3 (b0' + (A0 - a0)) (b1' + (A1 - a1)) (b2' + (A2 - a2))) (mkI3 z0' z1' z2')))) by boxfit.
  assert (Hov : overlap3 chk (mkRange3 (mkI3 b0 b1 b2) (mkI3 z0 z1 z2)) (mkRange3 (mkI3 (b0' + (A0 - a0)) (b1' + (A1 - a1)) (b2' + (A2 - a2))) (mkI3 z0' z1' z2')) =
    if meetb (pF b0 z0) (pG b0' z0' A0 a0) && (meetb (pF b1 z1) (pG b1' z1' A1 a1) && (meetb (pF b2 z2) (pG b2' z2' A2 a2))) then Ok (mkRange3 (mkI3 (fst (pC b0 z0 b0' z0' A0 a0)) (fst (pC b1 z1 b1' z1' A1 a1)) (fst (pC b2 z2 b2' z2' A2 a2))) (mkI3 (snd (pC b0 z0 b0' z0' A0 a0) - fst (pC b0 z0 b0' z0' A0 a0)) (snd (pC b1 z1 b1' z1' A1 a1) - fst (pC b1 z1 b1' z1' A1 a1)) (snd (pC b2 z2 b2' z2' A2 a2) - fst (pC b2 z2 b2' z2' A2 a2)))) else Err EOverlapNotFound).
  { destruct (meetb (pF b0 z0) (pG b0' z0' A0 a0) && (meetb (pF b1 z1) (pG b1' z1' A1 a1) && (meetb (pF b2 z2) (pG b2' z2' A2 a2)))) eqn:Hm.
    - apply andb_prop in Hm; destruct Hm as [Hm0 Hm1]. apply andb_prop in Hm1; destruct Hm1 as [Hm1 Hm2]. pose proof (V0 Hm0) as X0. pose proof (V1 Hm1) as X1. pose proof (V2 Hm2) as X2.
      rewrite overlap3_eq; [|assumption|assumption|apply X0|apply X1|apply X2].
      unfold faces3. cbn [r3_begin r3_size fst snd c0 c1 c2 nth]. rewrite !meets_meetb.
      change (b0, b0 + z0) with (pF b0 z0). change (b0' + (A0 - a0), b0' + (A0 - a0) + z0') with (pG b0' z0' A0 a0).
      change (b1, b1 + z1) with (pF b1 z1). change (b1' + (A1 - a1), b1' + (A1 - a1) + z1') with (pG b1' z1' A1 a1).
      change (b2, b2 + z2) with (pF b2 z2). change (b2' + (A2 - a2), b2' + (A2 - a2) + z2') with (pG b2' z2' A2 a2).
      rewrite Hm0, Hm1, Hm2. cbn [andb negb]. rewrite andb_false_r. reflexivity.
    - destruct Hchk as [->|Hchk]; [|rewrite Hchk in He; discriminate].
      unfold overlap3. rewrite is_overlap3_eq by assumption.
      unfold faces3. cbn [r3_begin r3_size fst snd c0 c1 c2 nth]. rewrite !meets_meetb.
      unfold pF, pG in Hm. rewrite Hm. reflexivity. }
  rewrite Hov. clear Hov. destruct (meetb (pF b0 z0) (pG b0' z0' A0 a0) && (meetb (pF b1 z1) (pG b1' z1' A1 a1) && (meetb (pF b2 z2) (pG b2' z2' A2 a2)))) eqn:Hm.
  2:{ cbn [negb] in He. rewrite He. reflexivity. }
  cbn [negb] in He.
  apply andb_prop in Hm. destruct Hm as [Hm0 Hm1]. apply andb_prop in Hm1. destruct Hm1 as [Hm1 Hm2].
  pose proof (V0 Hm0) as X0. pose proof (V1 Hm1) as X1. pose proof (V2 Hm2) as X2. clear V0 V1 V2.
  cbv zeta in X0, X1, X2.
  assert (EB : copy_box [l0; l1; l2] [(b0, b0 + z0); (b1, b1 + z1); (b2, b2 + z2)] [(b0', b0' + z0'); (b1', b1' + z1'); (b2', b2' + z2')] [A0; A1; A2] [a0; a1; a2] = [(fst (pC b0 z0 b0' z0' A0 a0), snd (pC b0 z0 b0' z0' A0 a0) + loc_val l0); (fst (pC b1 z1 b1' z1' A1 a1), snd (pC b1 z1 b1' z1' A1 a1) + loc_val l1); (fst (pC b2 z2 b2' z2' A2 a2), snd (pC b2 z2 b2' z2' A2 a2) + loc_val l2)]).
  { unfold copy_box, widen_high, caps, shift_box, vsub. cbn [combine map fst snd]. rewrite !pG_eq. reflexivity. }
  rewrite EB. clear EB.
  set (C0 := pC b0 z0 b0' z0' A0 a0) in *. clearbody C0.
  destruct X0 as (X0 & Y0 & Z0 & Q0 & S0 & E0 & L0).
  set (C1 := pC b1 z1 b1' z1' A1 a1) in *. clearbody C1.
  destruct X1 as (X1 & Y1 & Z1 & Q1 & S1 & E1 & L1).
  set (C2 := pC b2 z2 b2' z2' A2 a2) in *. clearbody C2.
  destruct X2 as (X2 & Y2 & Z2 & Q2 & S2 & E2 & L2).
  rewrite bind_lift_ok.
  match goal with |- bind (lift ?X) _ _ = _ =>
    assert (HX : X = match err with Some e => Err e | None => Ok tt end) end.
  { destruct chk.
    - rewrite K0'; cbn [rbind]. rewrite K1'; cbn [rbind]. rewrite K2'; cbn [rbind].
      unfold tran3. cbn [r3_begin r3_size fst snd c0 c1 c2]. rewrite T0'; cbn [rbind]. rewrite T1'; cbn [rbind]. rewrite T2'; cbn [rbind].
      rewrite N0; cbn [rbind]. rewrite N1; cbn [rbind]. rewrite N2; cbn [rbind].
      unfold cut_tail3. cbn [r3_begin r3_size fst snd c0 c1 c2]. rewrite U0; cbn [rbind]. rewrite U1; cbn [rbind]. rewrite U2; cbn [rbind].
      unfold cut_head3. cbn [r3_begin r3_size fst snd c0 c1 c2]. rewrite H0; cbn [rbind]. rewrite H0'; cbn [rbind]. rewrite H1; cbn [rbind]. rewrite H1'; cbn [rbind]. rewrite H2; cbn [rbind]. rewrite H2'; cbn [rbind].
      rewrite He. destruct same; [|reflexivity]. cbn [andb].
      rewrite is_overlap3_eq; [|boxfit|boxfit].
      unfold faces3. cbn [r3_begin r3_size fst snd c0 c1 c2 nth rbind]. rewrite !pC_re, !meets_meetb. unfold pW.
      match goal with |- (if ?c then _ else _) = _ => destruct c end; reflexivity.
    - destruct Hchk as [Hchk|Hchk]; [discriminate|]. now rewrite Hchk. }
  rewrite HX. clear HX. destruct err as [e|]; [reflexivity|]. rewrite bind_lift_ok.
  rewrite N0, bind_lift_ok.
  rewrite N1, bind_lift_ok.
  rewrite N2, bind_lift_ok.
  unfold cut_tail3. cbn [r3_begin r3_size fst snd c0 c1 c2]. rewrite S0; cbn [rbind]. rewrite S1; cbn [rbind]. rewrite S2; cbn [rbind]. rewrite bind_lift_ok.
  rewrite K0', bind_lift_ok.
  rewrite K1', bind_lift_ok.
  rewrite K2', bind_lift_ok.
  rewrite rbegin3_0, bind_lift_ok, rend3_0. cbn [r3_begin r3_size fst snd c0 c1 c2]. rewrite c_end, ck_ok by assumption. rewrite bind_lift_ok.
  rewrite rbegin3_1, bind_lift_ok, rend3_1. cbn [r3_begin r3_size fst snd c0 c1 c2]. rewrite c_end, ck_ok by assumption. rewrite bind_lift_ok.
  rewrite rbegin3_2, bind_lift_ok, rend3_2. cbn [r3_begin r3_size fst snd c0 c1 c2]. rewrite c_end, ck_ok by assumption. rewrite bind_lift_ok.
  unfold copy_run.
  pose proof (loc_val_range l0).
  pose proof (loc_val_range l1).
  pose proof (loc_val_range l2).
  rewrite for_int_run by lia. rewrite run_points_cons. cbn [fst snd].
  apply run_ext. intros x0 s0 Hx0. apply in_zrange in Hx0.
  rewrite for_int_run by lia. rewrite run_points_cons. cbn [fst snd].
  apply run_ext. intros x1 s1 Hx1. apply in_zrange in Hx1.
  rewrite for_int_run by lia. rewrite run_points_cons. cbn [fst snd].
  apply run_ext. intros x2 s2 Hx2. apply in_zrange in Hx2.
  rewrite run_points_nil. cbn [k_N]. apply for_uint_ext; [lia|]. intros n s''.
  rewrite (L0 x0 Hx0), bind_lift_ok. rewrite (L1 x1 Hx1), bind_lift_ok. rewrite (L2 x2 Hx2), bind_lift_ok. reflexivity.
Qed.

(** ** The four overloads, any class *)

Definition class_ok (k : kind) (o : obj) : Prop :=
  match k, o with K1 _ _, O1 _ | K2 _ _ _, O2 _ | K3 _ _ _ _, O3 _ => True | _, _ => False end.

Lemma m_copy_eq chk k d s same R r A a m :
  kok k -> class_ok k d -> class_ok k s -> length R = length (k_locs k) ->
  copy_fits (range_box R) (range_box r) A a ->
  let err := copy_error (k_locs k) same (range_box R) (range_box r) A a in
  (chk = true \/ err = None) ->
  m_copy chk k d s same R r A a m =
  match err with
  | Some e => Thr m e
  | None => copy_run k d s (copy_box (k_locs k) (range_box R) (range_box r) A a) (vsub A a) m
  end.
Proof.
  intros HN Hd Hs HL HF err Hchk. unfold kok in HN. subst err.
  destruct k as [N l0|N l0 l1|N l0 l1 l2]; destruct d as [d|d|d]; try contradiction; destruct s as [s|s|s]; try contradiction;
  cbn [k_locs k_N length] in *;
  destruct R as [|[b0 z0] [|[b1 z1] [|[b2 z2] [|? R]]]]; try discriminate;
  destruct r as [|[b0' z0'] [|[b1' z1'] [|[b2' z2'] [|? r]]]]; cbn [range_box map copy_fits] in HF; try (exfalso; tauto);
  destruct A as [|A0 [|A1 [|A2 [|? A]]]]; try (exfalso; tauto);
  destruct a as [|a0 [|a1 [|a2 [|? a]]]]; try (exfalso; tauto).
  - destruct HF as (F0 & _). cbn [m_copy]. now apply copy1_eq.
  - destruct HF as (F0 & F1 & _). cbn [m_copy]. now apply copy2_eq.
  - destruct HF as (F0 & F1 & F2 & _). cbn [m_copy]. now apply copy3_eq.
Qed.

Definition tag_range (gs : list dim_shape) (ts : list ra) : range :=
  map (fun '(g, t) => (fst (region g t), snd (region g t) - fst (region g t))) (combine gs ts).

Lemma tag_range_box gs ts : range_box (tag_range gs ts) = regions gs ts.
Proof.
  unfold range_box, tag_range, regions. rewrite map_map. apply map_ext. intros [g t]. symmetry. apply region_pair.
Qed.

Lemma tag_range_length gs ts : length gs = length ts -> length (tag_range gs ts) = length gs.
Proof. intros H. unfold tag_range. rewrite map_length, combine_length. lia. Qed.

Lemma m_size_length k o : class_ok k o -> length (m_size o) = length (k_locs k).
Proof. destruct k, o; try contradiction; reflexivity. Qed.

Lemma m_copy_tag_eq chk k d s same R r A a m :
  class_ok k d -> class_ok k s -> Forall shape_ok (m_size d) -> Forall shape_ok (m_size s) ->
  length R = length (k_locs k) -> length r = length (k_locs k) ->
  length A = length (k_locs k) -> length a = length (k_locs k) ->
  m_copy_tag chk k d s same R r A a m =
  m_copy chk k d s same (tag_range (m_size d) R) (tag_range (m_size s) r) A a m.
Proof.
  intros Hd Hs Fd Fs HR Hr HA Ha.
  assert (Gd : Forall dim_fits (m_size d)) by (eapply Forall_impl; [apply shape_ok_fits|exact Fd]).
  assert (Gs : Forall dim_fits (m_size s)) by (eapply Forall_impl; [apply shape_ok_fits|exact Fs]).
  clear Fd Fs.
  destruct k as [N l0|N l0 l1|N l0 l1 l2]; destruct d as [d|d|d]; try contradiction; destruct s as [s|s|s]; try contradiction;
  cbn [k_locs length m_size] in *;
  destruct R as [|R0 [|R1 [|R2 [|? R]]]]; try discriminate; destruct r as [|r0 [|r1 [|r2 [|? r]]]]; try discriminate;
  destruct A as [|A0 [|A1 [|A2 [|? A]]]]; try discriminate; destruct a as [|a0 [|a1 [|a2 [|? a]]]]; try discriminate;
  cbn [m_copy_tag].
  - unfold copy_from1_tag. destruct (pd1_size d) as [i n p] eqn:Ed, (pd1_size s) as [i' n' p'] eqn:Es.
    unfold shape1 in *. cbn [s1_in s1_n s1_p] in *. inversion_clear Gd. inversion_clear Gs.
    rewrite !srange1_eq by assumption. rewrite !bind_lift_ok. reflexivity.
  - unfold copy_from2_tag. rewrite !srange2_eq by assumption. rewrite !bind_lift_ok. reflexivity.
  - unfold copy_from3_tag. rewrite !srange3_eq by assumption. rewrite !bind_lift_ok. reflexivity.
Qed.

Definition edge_fits (B : box) : Prop :=
  Forall (fun f => in_int (fst f) /\ in_int (snd f) /\ in_int (snd f - 1)) B.

Lemma copy_fits_edges R r A a : copy_fits R r A a -> edge_fits R /\ edge_fits r.
Proof.
  revert r A a. induction R as [|f R IH]; intros [|g r] [|x A] [|y a]; cbn [copy_fits]; try tauto.
  - intros _. split; constructor.
  - intros [HF HR]. apply IH in HR. destruct HR as [HR Hr]. unfold dim_copy_fits, in_int in HF.
    split; constructor; auto; unfold in_int; lia.
Qed.

Lemma rbound1_eq chk b z fl : edge_fits [(b, b + z)] -> rbound1 chk (mkRange1 b z) 0 fl = Ok (edge (b, b + z) fl).
Proof.
  intros H. inversion_clear H as [|? ? (H1 & H2 & H3) _]. cbn [fst snd] in *.
  destruct fl; unfold rbound1; rs; cbn [r1_begin r1_size edge fst snd]; ckgo; reflexivity.
Qed.

Lemma m_copy_fl_eq chk k d s same R r fl m :
  class_ok k d -> class_ok k s ->
  length R = length (k_locs k) -> length r = length (k_locs k) -> length fl = length (k_locs k) ->
  edge_fits (range_box R) -> edge_fits (range_box r) ->
  m_copy_fl chk k d s same R r fl m =
  m_copy chk k d s same R r (edges (range_box R) fl) (edges (range_box r) fl) m.
Proof.
  intros Hd Hs HR Hr Hf ER Er.
  destruct k as [N l0|N l0 l1|N l0 l1 l2]; destruct d as [d|d|d]; try contradiction; destruct s as [s|s|s]; try contradiction;
  cbn [k_locs length] in *;
  destruct R as [|[b0 z0] [|[b1 z1] [|[b2 z2] [|? R]]]]; try discriminate;
  destruct r as [|[b0' z0'] [|[b1' z1'] [|[b2' z2'] [|? r]]]]; try discriminate;
  destruct fl as [|f0 [|f1 [|f2 [|? fl]]]]; try discriminate;
  cbn [m_copy_fl range_box map] in *;
  repeat match goal with H : edge_fits (_ :: _) |- _ => inversion_clear H as [|? ? (?H & ?H & ?H) ?H]
    | H : Forall _ (_ :: _) |- _ => inversion_clear H as [|? ? (?H & ?H & ?H) ?H] end; cbn [fst snd] in *.
  - unfold copy_from1_fl.
    assert (E : forall b z f, in_int b -> in_int (b + z) -> in_int (b + z - 1) ->
                rbound1 chk (mkRange1 b z) 0 f = Ok (edge (b, b + z) f)).
    { intros b z f X1 X2 X3. destruct f; unfold rbound1; rs; cbn [r1_begin r1_size edge fst snd]; ckgo; reflexivity. }
    rewrite !E by assumption. rewrite !bind_lift_ok. reflexivity.
  - unfold copy_from2_fl.
    assert (E0 : forall b z b' z' f, in_int b -> in_int (b + z) -> in_int (b + z - 1) ->
                rbound2 chk (mkRange2 (b, b') (z, z')) 0 f = Ok (edge (b, b + z) f)).
    { intros b z b' z' f X1 X2 X3. destruct f; unfold rbound2; rs; cbn [r2_begin r2_size edge fst snd]; ckgo; reflexivity. }
    assert (E1 : forall b z b' z' f, in_int b -> in_int (b + z) -> in_int (b + z - 1) ->
                rbound2 chk (mkRange2 (b', b) (z', z)) 1 f = Ok (edge (b, b + z) f)).
    { intros b z b' z' f X1 X2 X3. destruct f; unfold rbound2; rs; cbn [r2_begin r2_size edge fst snd]; ckgo; reflexivity. }
    rewrite !E0, !E1 by assumption. rewrite !bind_lift_ok. reflexivity.
  - unfold copy_from3_fl.
    assert (E0 : forall b z b' z' b'' z'' f, in_int b -> in_int (b + z) -> in_int (b + z - 1) ->
                rbound3 chk (mkRange3 (mkI3 b b' b'') (mkI3 z z' z'')) 0 f = Ok (edge (b, b + z) f)).
    { intros b z b' z' b'' z'' f X1 X2 X3. destruct f; unfold rbound3; rs; cbn [r3_begin r3_size c0 c1 c2 edge fst snd]; ckgo; reflexivity. }
    assert (E1 : forall b z b' z' b'' z'' f, in_int b -> in_int (b + z) -> in_int (b + z - 1) ->
                rbound3 chk (mkRange3 (mkI3 b' b b'') (mkI3 z' z z'')) 1 f = Ok (edge (b, b + z) f)).
    { intros b z b' z' b'' z'' f X1 X2 X3. destruct f; unfold rbound3; rs; cbn [r3_begin r3_size c0 c1 c2 edge fst snd]; ckgo; reflexivity. }
    assert (E2 : forall b z b' z' b'' z'' f, in_int b -> in_int (b + z) -> in_int (b + z - 1) ->
                rbound3 chk (mkRange3 (mkI3 b' b'' b) (mkI3 z' z'' z)) 2 f = Ok (edge (b, b + z) f)).
    { intros b z b' z' b'' z'' f X1 X2 X3. destruct f; unfold rbound3; rs; cbn [r3_begin r3_size c0 c1 c2 edge fst snd]; ckgo; reflexivity. }
    rewrite !E0, !E1, !E2 by assumption. rewrite !bind_lift_ok. reflexivity.
Qed.

Lemma m_copy_tag_fl_eq chk k d s same R r fl m :
  class_ok k d -> class_ok k s -> Forall shape_ok (m_size d) -> Forall shape_ok (m_size s) ->
  length R = length (k_locs k) -> length r = length (k_locs k) -> length fl = length (k_locs k) ->
  m_copy_tag_fl chk k d s same R r fl m =
  m_copy chk k d s same (tag_range (m_size d) R) (tag_range (m_size s) r)
         (edges (regions (m_size d) R) fl) (edges (regions (m_size s) r) fl) m.
Proof.
  intros Hd Hs Fd Fs HR Hr Hf.
  assert (Gd : Forall dim_fits (m_size d)) by (eapply Forall_impl; [apply shape_ok_fits|exact Fd]).
  assert (Gs : Forall dim_fits (m_size s)) by (eapply Forall_impl; [apply shape_ok_fits|exact Fs]).
  clear Fd Fs.
  destruct k as [N l0|N l0 l1|N l0 l1 l2]; destruct d as [d|d|d]; try contradiction; destruct s as [s|s|s]; try contradiction;
  cbn [k_locs length m_size] in *;
  destruct R as [|R0 [|R1 [|R2 [|? R]]]]; try discriminate; destruct r as [|r0 [|r1 [|r2 [|? r]]]]; try discriminate;
  destruct fl as [|f0 [|f1 [|f2 [|? fl]]]]; try discriminate;
  cbn [m_copy_tag_fl].
  - unfold copy_from1_tag_fl. destruct (pd1_size d) as [i n p] eqn:Ed, (pd1_size s) as [i' n' p'] eqn:Es.
    unfold shape1 in *. cbn [s1_in s1_n s1_p] in *. inversion_clear Gd as [|? ? G1 _]. inversion_clear Gs as [|? ? G2 _].
    rewrite !srange1_eq by assumption. rewrite !bind_lift_ok.
    destruct (dim_facts1 chk n i p G1) as (_ & _ & _ & F1). destruct (dim_facts1 chk n' i' p' G2) as (_ & _ & _ & F2).
    destruct (F1 R0) as (_ & _ & _ & _ & F1'). destruct (F2 r0) as (_ & _ & _ & _ & F2').
    rewrite F1', F2', !bind_lift_ok. reflexivity.
  - unfold copy_from2_tag_fl.
    rewrite !srange2_eq by assumption. rewrite !bind_lift_ok.
    assert (E : forall sz dd t fl, Forall dim_fits (shape2 sz) -> 0 <= dd < 2 ->
              sbound2 chk sz dd t fl = Ok (edge (region (dimof2 sz dd) t) fl)).
    { intros sz dd t fl Hs' Hdd. pose proof (dim_facts2 chk sz dd Hdd Hs') as F. unfold dim_facts in F.
      destruct (dimof2 sz dd) as [[? ?] ?]. destruct F as (_ & _ & _ & F). destruct (F t) as (_ & _ & _ & _ & F'). apply F'. }
    rewrite !E by (assumption || lia). rewrite !bind_lift_ok. reflexivity.
  - unfold copy_from3_tag_fl.
    rewrite !srange3_eq by assumption. rewrite !bind_lift_ok.
    assert (E : forall sz dd t fl, Forall dim_fits (shape3 sz) -> 0 <= dd < 3 ->
              sbound3 chk sz dd t fl = Ok (edge (region (dimof3 sz dd) t) fl)).
    { intros sz dd t fl Hs' Hdd. pose proof (dim_facts3 chk sz dd Hdd Hs') as F. unfold dim_facts in F.
      destruct (dimof3 sz dd) as [[? ?] ?]. destruct F as (_ & _ & _ & F). destruct (F t) as (_ & _ & _ & _ & F'). apply F'. }
    rewrite !E by (assumption || lia). rewrite !bind_lift_ok. reflexivity.
Qed.

(** ** The elements *)

Lemma load_store_other m m' p p' c : store p c m = Ret m' tt -> p <> p' -> load m' p' = load m p'.
Proof.
  intros H Hp. unfold store in H. destruct p as [|b off|]; try discriminate.
  destruct (block m b) as [cs|] eqn:E; [|discriminate].
  destruct ((0 <=? off) && (off <? Z.of_nat (length cs))) eqn:E2; [|discriminate]. injection H as <-.
  destruct p' as [|b' off'|]; try reflexivity. unfold load.
  destruct (Nat.eq_dec b b') as [<-|Hb].
  - rewrite (block_set_eq _ _ _ _ E), E. destruct (0 <=? off') eqn:E3; [|reflexivity].
    apply andb_prop in E2. destruct E2 as [E2 _]. zcmp.
    rewrite nth_error_upd_ne; [reflexivity|]. intros X. apply Hp. f_equal. lia.
  - now rewrite block_set_ne.
Qed.

Lemma store_lens m m' p c b len : store p c m = Ret m' tt -> blen m b len -> blen m' b len.
Proof.
  intros H (cs & E & HL). unfold store in H. destruct p as [|b' off|]; try discriminate.
  destruct (block m b') as [cs'|] eqn:E'; [|discriminate].
  destruct ((0 <=? off) && (off <? Z.of_nat (length cs'))) eqn:E2; [|discriminate]. injection H as <-.
  destruct (Nat.eq_dec b' b) as [<-|Hb].
  - eexists. split; [eapply block_set_eq; eassumption|]. rewrite upd_length. congruence.
  - exists cs. now rewrite block_set_ne.
Qed.

Section Run.
Variables (k : kind) (d s : obj) (gd gs : list dim_shape) (bd bs : list nat) (fd fs : content V) (B : box) (v : list Z).
Variable m0 : mem V.
Hypothesis HN : kok k.
Hypothesis Hd : liv k m0 d gd bd.
Hypothesis Hs : liv k m0 s gs bs.
Hypothesis Hdd : ~ In (hd O bd) (tl bd).
Hypothesis Hds : ~ In (hd O bd) (tl bs).
Hypothesis Hin : forall q, in_box B q -> in_box (sbox k gd) q /\ in_box (sbox k gs) (vsub q v).
(** No element is read after it was written. *)
Hypothesis Hdis : forall n q n' q', 0 <= n < k_N k -> 0 <= n' < k_N k -> in_box B q -> in_box B q' ->
  Ptr (hd O bd) (lin (sbox k gd) n' q') <> Ptr (hd O bs) (lin (sbox k gs) n (vsub q v)).

Definition src_ok m : Prop :=
  forall n q, 0 <= n < k_N k -> in_box B q ->
  load m (Ptr (hd O bs) (lin (sbox k gs) n (vsub q v))) = Ok (cell_of (fs n (vsub q v))).

Definition cinv m f : Prop :=
  same_but [hd O bd] m0 m /\ (forall b len, blen m0 b len -> blen m b len) /\ src_ok m /\
  holds m (hd O bd) (sbox k gd) (k_N k) f.

Lemma cinv_one m f n q :
  cinv m f -> 0 <= n < k_N k -> in_box B q ->
  exists m', copy_one d s v n q m = Ret m' tt /\ cinv m' (put_at f n q (fs n (vsub q v))).
Proof.
  intros (H1 & H2 & H3 & H4) Hn Hq. destruct (Hin q Hq) as [Hqd Hqs].
  assert (Hfr : forall b, b <> hd O bd -> block m b = block m0 b).
  { intros b Hb. destruct H1 as (_ & _ & _ & H1). apply H1. intros [X|[]]. congruence. }
  assert (Ld : liv k m d gd bd).
  { eapply liv_frame; [| |exact Hd]; [|apply H2]. intros b Hb. apply Hfr. intros ->. contradiction. }
  assert (Ls : liv k m s gs bs).
  { eapply liv_frame; [| |exact Hs]; [|apply H2]. intros b Hb. apply Hfr. intros ->. contradiction. }
  unfold copy_one. unfold gets at 1. unfold bind at 1.
  rewrite (lval_ok k m s gs bs n (vsub q v) HN Ls Hn Hqs). cbn [rbind]. rewrite (H3 n q Hn Hq). cbn [lift].
  unfold bind, gets. rewrite (lval_ok k m d gd bd n q HN Ld Hn Hqd). cbn [lift].
  destruct (holds_store m (hd O bd) (sbox k gd) (k_N k) f n q (fs n (vsub q v)) H4 Hn Hqd) as (m' & E & E1 & E2).
  exists m'. split; [exact E|]. split; [eapply same_but_trans; eassumption|].
  split; [intros b len Hb; eapply store_lens; [exact E|]; now apply H2|]. split; [|assumption].
  intros n1 q1 Hn1 Hq1. rewrite (load_store_other _ _ _ _ _ E); [now apply H3|].
  now apply Hdis.
Qed.

Lemma cinv_ext m f g :
  (forall n q, 0 <= n < k_N k -> in_box (sbox k gd) q -> f n q = g n q) -> cinv m f -> cinv m g.
Proof. intros E (H1 & H2 & H3 & H4). repeat split; try apply H1; auto. eapply holds_ext; eassumption. Qed.

Lemma cinv_row m f q :
  cinv m f -> in_box B q ->
  exists m', for_uint 0 (k_N k) (fun n => copy_one d s v n q) m = Ret m' tt /\
             cinv m' (fun n q' => if zs_eqb q' q then fs n (vsub q v) else f n q').
Proof.
  intros Hc Hq. unfold kok in HN.
  destruct (for_uint_inv (fun j m => cinv m (fun n q' => if (n <? j) && zs_eqb q' q then fs n (vsub q v) else f n q'))
             (k_N k) (fun n => copy_one d s v n q) m) as (m' & E & H).
  - lia.
  - eapply cinv_ext; [|exact Hc]. intros n q' Hn _. cbv beta.
    replace (n <? 0) with false by (symmetry; apply Z.ltb_ge; lia). reflexivity.
  - intros j m1 Hj H. destruct (cinv_one m1 _ j q H Hj Hq) as (m2 & E & H'). exists m2. split; [exact E|].
    eapply cinv_ext; [|exact H']. intros n q' Hn _. unfold put_at.
    destruct (zs_eqb q' q) eqn:Eq; rewrite ?andb_false_r, ?andb_true_r; [|reflexivity].
    destruct (n =? j) eqn:Ej; zcmp.
    + subst. replace (j <? j + 1) with true by (symmetry; apply Z.ltb_lt; lia). reflexivity.
    + destruct (n <? j) eqn:E1, (n <? j + 1) eqn:E3; zcmp; try reflexivity; lia.
  - exists m'. split; [exact E|]. eapply cinv_ext; [|exact H]. intros n q' Hn _. cbv beta.
    replace (n <? k_N k) with true by (symmetry; apply Z.ltb_lt; lia). reflexivity.
Qed.

Lemma cinv_run l m f :
  cinv m f -> (forall q, In q l -> in_box B q) ->
  exists m', run l (fun q => for_uint 0 (k_N k) (fun n => copy_one d s v n q)) m = Ret m' tt /\
             cinv m' (fun n q => if in_dec (list_eq_dec Z.eq_dec) q l then fs n (vsub q v) else f n q).
Proof.
  revert m f. induction l as [|q l IH]; intros m f Hc Hl.
  - exists m. split; [reflexivity|]. eapply cinv_ext; [|exact Hc]. reflexivity.
  - destruct (cinv_row m f q Hc) as (m1 & E1 & H1); [apply Hl; now left|].
    destruct (IH m1 _ H1) as (m2 & E2 & H2); [intros; apply Hl; now right|].
    exists m2. cbn [run]. rewrite (bind_ret _ _ _ _ _ E1). split; [exact E2|].
    eapply cinv_ext; [|exact H2]. intros n q' Hn _. cbv beta.
    destruct (in_dec _ q' l) as [I1|I1]; destruct (in_dec _ q' (q :: l)) as [I2|I2]; try reflexivity.
    + exfalso. apply I2. now right.
    + destruct I2 as [->|I2]; [|contradiction]. replace (zs_eqb q' q') with true by (symmetry; now apply zs_eqb_eq). reflexivity.
    + destruct (zs_eqb q' q) eqn:E; [|reflexivity]. apply zs_eqb_eq in E. subst. exfalso. apply I2. now left.
Qed.

Hypothesis Hhd : holds m0 (hd O bd) (sbox k gd) (k_N k) fd.
Hypothesis Hhs : holds m0 (hd O bs) (sbox k gs) (k_N k) fs.

Lemma copy_run_ok :
  exists m', copy_run k d s B v m0 = Ret m' tt /\ same_but [hd O bd] m0 m' /\
    (forall b len, blen m0 b len -> blen m' b len) /\
    holds m' (hd O bd) (sbox k gd) (k_N k) (fun n q => if in_boxb B q then fs n (vsub q v) else fd n q).
Proof.
  destruct (cinv_run (points B) m0 fd) as (m' & E & H1 & H2 & _ & H4).
  - split; [apply same_but_refl|]. split; [auto|]. split; [|assumption].
    intros n q Hn Hq. eapply holds_load; [exact Hhs|assumption|]. now apply Hin.
  - intros q. apply in_points.
  - exists m'. split; [exact E|]. split; [assumption|]. split; [assumption|].
    eapply holds_ext; [|exact H4]. intros n q Hn Hq. cbv beta.
    destruct (in_dec _ q (points B)) as [I1|I1]; destruct (in_boxb B q) eqn:I2; try reflexivity.
    + apply in_points, in_boxb_iff in I1. congruence.
    + apply in_boxb_iff, in_points in I2. contradiction.
Qed.

End Run.

Lemma points_empty B : (forall q, ~ in_box B q) -> points B = [].
Proof.
  intros H. destruct (points B) as [|q l] eqn:E; [reflexivity|]. exfalso. apply (H q). apply in_points. rewrite E. now left.
Qed.

Lemma copy_run_empty k d s B v m : (forall q, ~ in_box B q) -> copy_run k d s B v m = Ret m tt.
Proof. intros H. unfold copy_run. rewrite points_empty by assumption. reflexivity. Qed.

(** The self-copy guard: no slot read is written. *)
Lemma guard_sound ls R r A a q q' :
  length R = length ls -> copy_fits R r A a ->
  copy_error ls true R r A a = None ->
  in_box (copy_box ls R r A a) q -> in_box (copy_box ls R r A a) q' -> partner A a q <> q'.
Proof.
  intros HL HF He Hq Hq' Hp. unfold copy_error in He.
  destruct (negb _); [discriminate|]. cbn [andb] in He.
  enough (X : meetsb (widen ls (shift_box (vsub a A) R)) (caps R (shift_box (vsub A a) r)) = true)
    by (rewrite X in He; discriminate).
  clear He. subst q'. revert r A a ls q HL HF Hq Hq'.
  induction R as [|f R IH]; intros [|g r] [|x A] [|y a] ls q HL HF Hq Hq'; cbn [copy_fits] in HF; try contradiction.
  - destruct ls; [reflexivity|discriminate].
  - destruct ls as [|l ls]; [discriminate|]. injection HL as HL. destruct HF as [F HF].
    unfold copy_box, widen_high, caps, shift_box, vsub, widen, meetsb in *. cbn [combine map fst snd] in *.
    apply in_box_cons in Hq. destruct Hq as (z & q1 & -> & Hz & Hq).
    unfold partner, vsub in Hq'. cbn [combine map] in Hq'.
    apply in_box_cons in Hq'. destruct Hq' as (z' & q2 & E & Hz' & Hq'). injection E as <- <-.
    cbn [forallb]. rewrite (IH r A a ls q1 HL HF Hq Hq'). rewrite andb_true_r.
    unfold meetb, cap in *. cbn [fst snd] in *. pose proof (loc_val_range l).
    apply andb_true_intro. split; apply Z.ltb_lt; lia.
Qed.

Lemma copy_box_length ls R r A a :
  length R = length ls -> copy_fits R r A a -> length (copy_box ls R r A a) = length ls.
Proof.
  intros HL HF. revert r A a ls HL HF. induction R as [|f R IH]; intros [|g r] [|x A] [|y a] [|l ls] HL HF;
  cbn [copy_fits] in HF; try contradiction; try discriminate; [reflexivity|].
  destruct HF as [_ HF]. injection HL as HL. specialize (IH r A a ls HL HF).
  unfold copy_box, widen_high, caps, shift_box, vsub in *. cbn [combine map length] in *. lia.
Qed.

End Copy.
