(** Memory lemmas. *)

From Coq Require Import ZArith List Bool Lia.
From Verif Require Import Base M_Loop M_Heap L_Base Spec Spec_Loop L_Loop.
Import ListNotations.
Open Scope Z_scope.

(** ** Lists *)

Lemma upd_length {A} (l : list A) k x : length (upd l k x) = length l.
Proof. revert k. induction l as [|y l IH]; intros [|k]; cbn; auto. Qed.

Lemma nth_error_upd_eq {A} (l : list A) k x : (k < length l)%nat -> nth_error (upd l k x) k = Some x.
Proof.
  revert k. induction l as [|y l IH]; intros [|k] H; cbn in *; try lia; auto. apply IH. lia.
Qed.

Lemma nth_error_upd_ne {A} (l : list A) k k' x : k <> k' -> nth_error (upd l k x) k' = nth_error l k'.
Proof.
  revert k k'. induction l as [|y l IH]; intros [|k] [|k'] H; cbn; auto; try congruence.
Qed.

Lemma upd_app1 {A} (l1 l2 : list A) x y : upd (l1 ++ y :: l2) (length l1) x = l1 ++ x :: l2.
Proof. induction l1 as [|z l1 IH]; cbn; [reflexivity|]. now rewrite IH. Qed.

Lemma nth_error_ext_eq {A} (l l' : list A) :
  (forall k, nth_error l k = nth_error l' k) -> l = l'.
Proof.
  revert l'. induction l as [|x l IH]; intros [|y l'] H; auto.
  - specialize (H O). discriminate.
  - specialize (H O). discriminate.
  - f_equal; [specialize (H O); cbn in H; congruence|]. apply IH. intros k. apply (H (S k)).
Qed.

(** Integer indexed access. *)
Definition znth {A} (l : list A) (z : Z) : option A := if 0 <=? z then nth_error l (Z.to_nat z) else None.

Lemma znth_some {A} (l : list A) z x : znth l z = Some x -> 0 <= z < Z.of_nat (length l).
Proof.
  unfold znth. destruct (0 <=? z) eqn:E; [|discriminate]. zcmp. intros H.
  assert (Hn : (Z.to_nat z < length l)%nat) by (apply nth_error_Some; congruence). lia.
Qed.

Lemma znth_in {A} (l : list A) z : 0 <= z < Z.of_nat (length l) -> exists x, znth l z = Some x.
Proof.
  intros H. unfold znth. replace (0 <=? z) with true by (symmetry; apply Z.leb_le; lia).
  destruct (nth_error l (Z.to_nat z)) eqn:E; [eauto|].
  apply nth_error_None in E. lia.
Qed.

Lemma znth_none {A} (l : list A) z : ~ (0 <= z < Z.of_nat (length l)) -> znth l z = None.
Proof.
  intros H. destruct (znth l z) eqn:E; [|reflexivity]. apply znth_some in E. lia.
Qed.

Lemma znth_upd {A} (l : list A) k z x :
  0 <= k < Z.of_nat (length l) ->
  znth (upd l (Z.to_nat k) x) z = if z =? k then Some x else znth l z.
Proof.
  intros H. unfold znth. destruct (z =? k) eqn:E; zcmp.
  - subst. replace (0 <=? k) with true by (symmetry; apply Z.leb_le; lia).
    apply nth_error_upd_eq. lia.
  - destruct (0 <=? z) eqn:E0; zcmp; [|reflexivity].
    apply nth_error_upd_ne. lia.
Qed.

Lemma znth_map_zrange {A} (f : Z -> A) n z :
  znth (map f (zrange 0 n)) z = if (0 <=? z) && (z <? n) then Some (f z) else None.
Proof.
  unfold znth. destruct (0 <=? z) eqn:E; zcmp; cbn [andb]; [|reflexivity].
  destruct (z <? n) eqn:E'; zcmp.
  - rewrite nth_error_map. unfold zrange. rewrite nth_error_map.
    rewrite (nth_error_nth' _ 0%nat) by (rewrite seq_length; lia).
    rewrite seq_nth by lia. cbn [option_map]. f_equal. f_equal. lia.
  - apply nth_error_None. rewrite map_length, length_zrange. lia.
Qed.

Lemma znth_repeat {A} (x : A) k z : 0 <= z < Z.of_nat k -> znth (repeat x k) z = Some x.
Proof.
  intros H. unfold znth. replace (0 <=? z) with true by (symmetry; apply Z.leb_le; lia).
  apply nth_error_repeat. lia.
Qed.

Lemma znth_ext {A} (l l' : list A) :
  length l = length l' -> (forall z, 0 <= z < Z.of_nat (length l) -> znth l z = znth l' z) -> l = l'.
Proof.
  intros HL H. apply nth_error_ext_eq. intros k.
  destruct (Nat.lt_ge_cases k (length l)) as [Hk|Hk].
  - specialize (H (Z.of_nat k) ltac:(lia)). unfold znth in H.
    replace (0 <=? Z.of_nat k) with true in H by (symmetry; apply Z.leb_le; lia).
    now rewrite Nat2Z.id in H.
  - rewrite !(proj2 (nth_error_None _ _)) by lia. reflexivity.
Qed.

Lemma arr_get_znth {A} (l : list A) z : arr_get l z = match znth l z with Some x => Ok x | None => UB end.
Proof. unfold arr_get, znth. now destruct (0 <=? z). Qed.

Lemma arr_get_ok {A} (l : list A) z x : znth l z = Some x -> arr_get l z = Ok x.
Proof. intros H. rewrite arr_get_znth. now rewrite H. Qed.

Lemma arr_set_ok {A} (l : list A) z x :
  0 <= z < Z.of_nat (length l) -> arr_set l z x = Ok (upd l (Z.to_nat z) x).
Proof.
  intros H. unfold arr_set. replace (0 <=? z) with true by (symmetry; apply Z.leb_le; lia).
  replace (z <? Z.of_nat (length l)) with true by (symmetry; apply Z.ltb_lt; lia). reflexivity.
Qed.

Section Heap.
Context {V : Type}.
Implicit Types m : mem V.

(** ** Blocks *)

Lemma block_set_eq m b x cs : block m b = Some cs -> block (set_block m b x) b = x.
Proof.
  unfold block, set_block. cbn [blocks]. destruct (nth_error (blocks m) b) as [o|] eqn:E; [|discriminate].
  intros _. rewrite nth_error_upd_eq by (apply nth_error_Some; congruence). now destruct x.
Qed.

Lemma block_set_ne m b b' x : b <> b' -> block (set_block m b x) b' = block m b'.
Proof. intros H. unfold block, set_block. cbn [blocks]. now rewrite nth_error_upd_ne. Qed.

Lemma block_lt m b cs : block m b = Some cs -> (b < length (blocks m))%nat.
Proof.
  unfold block. destruct (nth_error (blocks m) b) eqn:E; [|discriminate].
  intros _. apply nth_error_Some. congruence.
Qed.

Lemma blocks_set m b x : length (blocks (set_block m b x)) = length (blocks m).
Proof. unfold set_block. cbn [blocks]. apply upd_length. Qed.

(** ** Loads, stores, pointer arithmetic *)

Lemma load_ok m b off cs c :
  block m b = Some cs -> znth cs off = Some c -> load m (Ptr b off) = Ok c.
Proof.
  intros H Hc. unfold load. rewrite H. unfold znth in Hc. destruct (0 <=? off); [|discriminate].
  now rewrite Hc.
Qed.

Lemma load_eq m b off cs :
  block m b = Some cs -> load m (Ptr b off) = match znth cs off with Some c => Ok c | None => UB end.
Proof.
  intros H. unfold load. rewrite H. unfold znth. destruct (0 <=? off); reflexivity.
Qed.

Lemma store_ok m b off cs c :
  block m b = Some cs -> 0 <= off < Z.of_nat (length cs) ->
  store (Ptr b off) c m = Ret (set_block m b (Some (upd cs (Z.to_nat off) c))) tt.
Proof.
  intros H Ho. unfold store. rewrite H.
  replace (0 <=? off) with true by (symmetry; apply Z.leb_le; lia).
  replace (off <? Z.of_nat (length cs)) with true by (symmetry; apply Z.ltb_lt; lia). reflexivity.
Qed.

Lemma padd_ok m b off cs k :
  block m b = Some cs -> 0 <= off + k <= Z.of_nat (length cs) -> padd m (Ptr b off) k = Ok (Ptr b (off + k)).
Proof.
  intros H Ho. unfold padd. rewrite H.
  replace (0 <=? off + k) with true by (symmetry; apply Z.leb_le; lia).
  replace (off + k <=? Z.of_nat (length cs)) with true by (symmetry; apply Z.leb_le; lia). reflexivity.
Qed.

Lemma pidx_ok m b off cs k :
  block m b = Some cs -> 0 <= off + k < Z.of_nat (length cs) -> pidx m (Ptr b off) k = Ok (Ptr b (off + k)).
Proof.
  intros H Ho. unfold pidx. rewrite H.
  replace (0 <=? off + k) with true by (symmetry; apply Z.leb_le; lia).
  replace (off + k <? Z.of_nat (length cs)) with true by (symmetry; apply Z.ltb_lt; lia). reflexivity.
Qed.

Lemma load_ptr_ok m b off cs p :
  block m b = Some cs -> znth cs off = Some (CPtr p) -> load_ptr m (Ptr b off) = Ok p.
Proof. intros H Hc. unfold load_ptr. rewrite (load_ok _ _ _ _ _ H Hc). reflexivity. Qed.

(** ** new and delete *)

Definition mem_tick m : mem V := mkMem (blocks m) (fails m) (S (tick m)).
Definition mem_new m (len : Z) : mem V :=
  mkMem (blocks m ++ [Some (repeat CUndef (Z.to_nat len))]) (fails m) (S (tick m)).

Lemma hnew_eq m len :
  hnew len m = if fails m (tick m) then Thr (mem_tick m) EBadAlloc
               else Ret (mem_new m len) (Ptr (length (blocks m)) 0).
Proof. reflexivity. Qed.

Lemma block_tick m b : block (mem_tick m) b = block m b.
Proof. reflexivity. Qed.

Lemma block_new_old m len b : (b < length (blocks m))%nat -> block (mem_new m len) b = block m b.
Proof. intros H. unfold block, mem_new. cbn [blocks]. now rewrite nth_error_app1. Qed.

Lemma block_new_new m len :
  block (mem_new m len) (length (blocks m)) = Some (repeat CUndef (Z.to_nat len)).
Proof.
  unfold block, mem_new. cbn [blocks]. rewrite nth_error_app2 by lia. rewrite Nat.sub_diag. reflexivity.
Qed.

Lemma block_new_some m len b cs : block m b = Some cs -> block (mem_new m len) b = Some cs.
Proof. intros H. rewrite block_new_old; [assumption|]. now apply block_lt in H. Qed.

Lemma block_beyond m b : (length (blocks m) <= b)%nat -> block m b = None.
Proof. intros H. unfold block. now rewrite (proj2 (nth_error_None _ _)). Qed.

Lemma blocks_new m len : length (blocks (mem_new m len)) = S (length (blocks m)).
Proof. unfold mem_new. cbn [blocks]. rewrite app_length. cbn. lia. Qed.

Lemma hdelete_ok m b cs : block m b = Some cs -> hdelete (Ptr b 0) m = Ret (set_block m b None) tt.
Proof. intros H. unfold hdelete. rewrite Z.eqb_refl, H. reflexivity. Qed.

Lemma hdelete_null m : hdelete Null m = Ret m tt.
Proof. reflexivity. Qed.

(** Two memories with the same live blocks in a set. *)
Definition agree (bs : nat -> Prop) m m' : Prop := forall b, bs b -> block m' b = block m b.

End Heap.
