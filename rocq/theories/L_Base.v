(** Lemmas about machine arithmetic and sequencing. *)

From Coq Require Import ZArith List Bool Lia.
From Verif Require Import Base M_Flags M_Loop.
Import ListNotations.
Open Scope Z_scope.

Lemma ck_ok z : in_int z -> ck z = Ok z.
Proof.
  intros [H1 H2]. unfold ck, in_intb.
  apply Z.leb_le in H1. apply Z.leb_le in H2. now rewrite H1, H2.
Qed.

Lemma ck_inv z v : ck z = Ok v -> v = z /\ in_int z.
Proof.
  unfold ck, in_intb, in_int. destruct (_ && _) eqn:E; [|discriminate].
  apply andb_prop in E. destruct E as [E1 E2].
  apply Z.leb_le in E1. apply Z.leb_le in E2. intros [= <-]. auto.
Qed.

Lemma ck_not_err z e : ck z <> Err e.
Proof. unfold ck. now destruct (in_intb z). Qed.

Lemma uwrap_small z : in_uint z -> uwrap z = z.
Proof. intros H. unfold uwrap. now apply Z.mod_small. Qed.

Lemma uwrap_range z : in_uint (uwrap z).
Proof. unfold uwrap, in_uint. apply Z.mod_pos_bound. lia. Qed.

Lemma u2i_small u : u <= INT_MAX -> u2i u = u.
Proof. intros H. unfold u2i. apply Z.leb_le in H. now rewrite H. Qed.

Lemma u2i_i2u z : in_int z -> u2i (i2u z) = z.
Proof.
  intros [H1 H2]. unfold u2i, i2u, uwrap.
  destruct (Z_lt_le_dec z 0) as [Hn|Hp].
  - replace (z mod UINT_MOD) with (z + UINT_MOD).
    + destruct (_ <=? _) eqn:E; [apply Z.leb_le in E; lia | lia].
    + apply Z.mod_unique with (q := -1); lia.
  - rewrite Z.mod_small by lia.
    destruct (_ <=? _) eqn:E; [lia | apply Z.leb_gt in E; lia].
Qed.

Lemma i2u_small z : in_uint z -> i2u z = z.
Proof. apply uwrap_small. Qed.

Lemma u2i_in_int u : in_uint u -> in_int (u2i u).
Proof.
  unfold in_uint, in_int, u2i. intros H.
  destruct (_ <=? _) eqn:E; [apply Z.leb_le in E | apply Z.leb_gt in E]; lia.
Qed.

Lemma loc_val_range l : 0 <= loc_val l <= 1.
Proof. destruct l; cbn; lia. Qed.

Lemma fl_offset_range f : 0 <= fl_offset f <= 1.
Proof. destruct f; cbn; lia. Qed.

(** Discharge the overflow checks that linear arithmetic can discharge. *)
Ltac ckgo :=
  repeat match goal with
  | |- context [ck ?z] =>
      rewrite (ck_ok z) by (unfold in_int in *; lia); cbn [rbind]
  end.

Ltac arith := unfold iadd, isub, imul, ineg; ckgo.

(** Turn boolean comparisons into propositions. *)
Ltac zcmp :=
  repeat match goal with
  | H : (_ <=? _) = true |- _ => apply Z.leb_le in H
  | H : (_ <=? _) = false |- _ => apply Z.leb_gt in H
  | H : (_ <? _) = true |- _ => apply Z.ltb_lt in H
  | H : (_ <? _) = false |- _ => apply Z.ltb_ge in H
  | H : (_ >=? _) = _ |- _ => rewrite Z.geb_leb in H
  | H : (_ >? _) = _ |- _ => rewrite Z.gtb_ltb in H
  | H : (_ =? _) = true |- _ => apply Z.eqb_eq in H
  | H : (_ =? _) = false |- _ => apply Z.eqb_neq in H
  end.

(** ** Sequencing *)

Lemma bind_lift_ok {S A B} (a : A) (f : A -> M S B) s : bind (lift (Ok a)) f s = f a s.
Proof. reflexivity. Qed.

Lemma bind_lift_err {S A B} e (f : A -> M S B) s : bind (lift (Err e)) f s = Thr s e.
Proof. reflexivity. Qed.

Lemma bind_ret {S A B} (m : M S A) (f : A -> M S B) s s' a :
  m s = Ret s' a -> bind m f s = f a s'.
Proof. intros H. unfold bind. now rewrite H. Qed.

Lemma bind_thr {S A B} (m : M S A) (f : A -> M S B) s s' e :
  m s = Thr s' e -> bind m f s = Thr s' e.
Proof. intros H. unfold bind. now rewrite H. Qed.

Lemma bind_undef {S A B} (m : M S A) (f : A -> M S B) s :
  m s = Undef -> bind m f s = Undef.
Proof. intros H. unfold bind. now rewrite H. Qed.

Lemma bind_assoc {S A B C} (m : M S A) (f : A -> M S B) (g : B -> M S C) s :
  bind (bind m f) g s = bind m (fun a => bind (f a) g) s.
Proof. unfold bind. now destruct (m s). Qed.

Lemma bind_ext {S A B} (m m' : M S A) (f f' : A -> M S B) s :
  m s = m' s -> (forall a s', f a s' = f' a s') -> bind m f s = bind m' f' s.
Proof. intros H1 H2. unfold bind. rewrite H1. now destruct (m' s). Qed.

Lemma bind_ret_r {S} (m : M S unit) s : bind m (fun _ => ret tt) s = m s.
Proof. unfold bind, ret. destruct (m s) as [s' []| |]; reflexivity. Qed.

Lemma rbind_ok_inv {A B} (x : res A) (f : A -> res B) b :
  rbind x f = Ok b -> exists a, x = Ok a /\ f a = Ok b.
Proof. destruct x; cbn; intros H; try discriminate. eauto. Qed.
