(** Row-major addresses are a bijection. *)

From Coq Require Import ZArith List Bool Lia.
From Verif Require Import Base M_Flags M_Loop Spec Spec_Loop Spec_Array L_Base L_Range L_Loop L_Heap.
Import ListNotations.
Open Scope Z_scope.

Definition ordered (B : box) : Prop := Forall (fun f => fst f <= snd f) B.

Lemma vol_cons f B : vol (f :: B) = (snd f - fst f) * vol B.
Proof. reflexivity. Qed.

Lemma vol_nonneg B : ordered B -> 0 <= vol B.
Proof.
  induction 1 as [|f B Hf HB IH]; [cbn; lia|]. rewrite vol_cons. nia.
Qed.

Lemma vol_pos_in B q : in_box B q -> 0 < vol B.
Proof.
  induction 1 as [|f x B q Hf HB IH]; [cbn; lia|]. rewrite vol_cons. nia.
Qed.

Lemma vol_pos B : ordered B -> vol B <> 0 -> box_nonempty B.
Proof.
  induction 1 as [|f B Hf HB IH]; intros H; [constructor|]. rewrite vol_cons in H.
  constructor.
  - destruct (Z.eq_dec (snd f) (fst f)) as [E|E]; [|lia]. exfalso. apply H. rewrite E. lia.
  - apply IH. intros E. apply H. rewrite E. lia.
Qed.

Lemma nonempty_vol B : box_nonempty B -> 0 < vol B.
Proof. induction 1 as [|f B Hf HB IH]; [cbn; lia|]. rewrite vol_cons. nia. Qed.

Lemma nonempty_ordered B : box_nonempty B -> ordered B.
Proof. intros H. eapply Forall_impl; [|exact H]. cbn. intros. lia. Qed.

Lemma lin_range B q a : in_box B q -> a * vol B <= lin B a q < (a + 1) * vol B.
Proof.
  intros H. revert a. induction H as [|f x B q Hf HB IH]; intros a; [cbn; lia|].
  cbn [lin]. rewrite vol_cons.
  specialize (IH (a * (snd f - fst f) + (x - fst f))).
  pose proof (vol_pos_in _ _ HB).
  set (P := snd f - fst f) in *. set (v := vol B) in *. nia.
Qed.

Lemma lin_bounds B q a N : 0 <= a < N -> in_box B q -> 0 <= lin B a q < N * vol B.
Proof.
  intros Ha H. pose proof (lin_range B q a H). pose proof (vol_pos_in _ _ H). nia.
Qed.

Lemma lin_inj B q q' a a' : in_box B q -> in_box B q' -> lin B a q = lin B a' q' -> a = a' /\ q = q'.
Proof.
  intros H. revert q' a a'. induction H as [|f x B q Hf HB IH]; intros q' a a' H' E.
  - inversion H'; subst. auto.
  - inversion H' as [|? y ? q0 Hy Hq0]; subst. cbn [lin] in E.
    apply IH in E; [|assumption]. destruct E as [E ->].
    set (P := snd f - fst f) in *.
    assert (HP : 0 < P) by (unfold P; lia).
    assert (a = a') by nia. subst. split; [reflexivity|]. f_equal. lia.
Qed.

Lemma lin_surj B a k :
  ordered B -> a * vol B <= k < (a + 1) * vol B -> exists q, in_box B q /\ lin B a q = k.
Proof.
  intros H. revert a k. induction H as [|f B Hf HB IH]; intros a k Hk.
  - exists []. split; [constructor|]. cbn in *. lia.
  - rewrite vol_cons in Hk. pose proof (vol_nonneg _ HB) as Hv.
    set (P := snd f - fst f) in *. set (v := vol B) in *.
    assert (Hv0 : 0 < v) by nia.
    pose (y := k / v - a * P).
    assert (Hy : 0 <= y < P).
    { unfold y. pose proof (Z.div_le_lower_bound k v (a * P)). pose proof (Z.div_lt_upper_bound k v ((a + 1) * P)). nia. }
    destruct (IH (a * P + y) k) as (q & Hq & E).
    { unfold y. pose proof (Z.mul_div_le k v Hv0). pose proof (Z.mul_succ_div_gt k v Hv0). nia. }
    exists (fst f + y :: q). split.
    + constructor; [cbv beta; clearbody y; subst P; lia | assumption].
    + cbn [lin]. fold P. replace (fst f + y - fst f) with y by lia. assumption.
Qed.

Lemma lin_surj_N B N k :
  ordered B -> 0 <= k < N * vol B -> exists n q, 0 <= n < N /\ in_box B q /\ lin B n q = k.
Proof.
  intros HB Hk. pose proof (vol_nonneg _ HB). assert (Hv : 0 < vol B).
  { destruct (Z.eq_dec (vol B) 0) as [E|E]; [rewrite E in Hk; lia | lia]. }
  destruct (lin_surj B (k / vol B) k HB) as (q & Hq & E).
  { pose proof (Z.mul_div_le k (vol B) Hv). pose proof (Z.mul_succ_div_gt k (vol B) Hv). nia. }
  exists (k / vol B), q. split; [|auto]. split; [apply Z.div_pos; lia | apply Z.div_lt_upper_bound; nia].
Qed.

(** The row-major position is the position in the enumeration of the points. *)
Lemma nth_error_flat_map {A B} (g : A -> list B) (l : list A) d k j x :
  (forall y, In y l -> length (g y) = d) -> nth_error l k = Some x -> (j < d)%nat ->
  nth_error (flat_map g l) (k * d + j) = nth_error (g x) j.
Proof.
  revert k. induction l as [|y l IH]; intros k Hd Hk Hj; [destruct k; discriminate|].
  cbn [flat_map]. destruct k as [|k].
  - cbn in Hk. injection Hk as ->. cbn [Nat.mul Nat.add].
    apply nth_error_app1. rewrite Hd; [assumption | now left].
  - cbn in Hk. replace (S k * d + j)%nat with (d + (k * d + j))%nat by (cbn [Nat.mul]; lia).
    rewrite nth_error_app2 by (rewrite Hd by (now left); apply Nat.le_add_r).
    rewrite Hd by now left. replace (d + (k * d + j) - d)%nat with (k * d + j)%nat by lia.
    apply IH; auto. intros; apply Hd; now right.
Qed.

Lemma points_length_vol B : ordered B -> Z.of_nat (length (points B)) = vol B.
Proof.
  intros H. rewrite points_length. induction H as [|f B Hf HB IH]; [reflexivity|].
  cbn [map fold_right]. rewrite vol_cons, Nat2Z.inj_mul, IH, Z2Nat.id by lia. reflexivity.
Qed.

Lemma lin_acc B a q : in_box B q -> lin B a q = a * vol B + lin B 0 q.
Proof.
  intros H. revert a. induction H as [|f x B q Hf HB IH]; intros a; [cbn; lia|].
  cbn [lin]. rewrite vol_cons, IH, (IH (0 * (snd f - fst f) + (x - fst f))). ring.
Qed.

Lemma nth_error_points B q :
  in_box B q -> nth_error (points B) (Z.to_nat (lin B 0 q)) = Some q.
Proof.
  intros H. induction H as [|f x B q Hf HB IH]; [reflexivity|].
  cbn [points lin]. rewrite Z.mul_0_l, Z.add_0_l.
  rewrite lin_acc by assumption.
  pose proof (lin_range B q 0 HB) as HR. pose proof (vol_pos_in _ _ HB) as Hv.
  rewrite Z.mul_0_l, Z.add_0_l, Z.mul_1_l in HR.
  assert (HL : length (points B) = Z.to_nat (vol B)).
  { assert (Hin : In q (points B)) by (now apply in_points).
    rewrite points_length.
    clear - HB. induction HB as [|f x B q Hf HB IH]; [reflexivity|].
    cbn [map fold_right]. rewrite IH, vol_cons, Z2Nat.inj_mul by (pose proof (vol_pos_in _ _ HB); lia). reflexivity. }
  replace (Z.to_nat ((x - fst f) * vol B + lin B 0 q))
    with (Z.to_nat (x - fst f) * length (points B) + Z.to_nat (lin B 0 q))%nat
    by (rewrite HL, <- Z2Nat.inj_mul, <- Z2Nat.inj_add by nia; reflexivity).
  rewrite nth_error_flat_map with (x := x).
  - rewrite nth_error_map, IH. reflexivity.
  - intros y _. now rewrite map_length.
  - rewrite (nth_error_nth' _ 0) by (rewrite length_zrange; lia).
    rewrite nth_zrange by lia. f_equal. lia.
  - rewrite HL. lia.
Qed.

Lemma slot_box_length gs ls : length gs = length ls -> length (slot_box gs ls) = length gs.
Proof. intros H. unfold slot_box. rewrite map_length, combine_length. lia. Qed.
