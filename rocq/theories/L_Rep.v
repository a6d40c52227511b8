(** Tools for the representation invariants of the array classes. *)

From Coq Require Import ZArith List Bool Lia.
From Verif Require Import Base M_Flags M_Loop M_Heap Spec Spec_Loop Spec_Array L_Base L_Range L_Loop L_Heap L_Lin.
Import ListNotations.
Open Scope Z_scope.

Lemma run_inv {S} (Inv : Z -> S -> Prop) b e (body : Z -> M S unit) s :
  b <= e -> Inv b s ->
  (forall k s, b <= k < e -> Inv k s -> exists s', body k s = Ret s' tt /\ Inv (k + 1) s') ->
  exists s', run (zrange b e) body s = Ret s' tt /\ Inv e s'.
Proof.
  intros He. remember (Z.to_nat (e - b)) as c eqn:Hc. revert b He Hc s.
  induction c as [|c IH]; intros b He Hc s H0 Hs.
  - assert (b = e) by lia. subst. rewrite zrange_nil by lia. exists s. split; [reflexivity|assumption].
  - rewrite zrange_cons by lia. destruct (Hs b s ltac:(lia) H0) as (s1 & E1 & H1).
    destruct (IH (b + 1) ltac:(lia) ltac:(lia) s1 H1) as (s2 & E2 & H2).
    { intros k s' Hk. apply Hs. lia. }
    exists s2. split; [|assumption]. cbn [run]. rewrite (bind_ret _ _ _ _ _ E1). assumption.
Qed.

Lemma for_uint_inv {S} (Inv : Z -> S -> Prop) e (body : Z -> M S unit) s :
  0 <= e < UINT_MOD -> Inv 0 s ->
  (forall k s, 0 <= k < e -> Inv k s -> exists s', body k s = Ret s' tt /\ Inv (k + 1) s') ->
  exists s', for_uint 0 e body s = Ret s' tt /\ Inv e s'.
Proof.
  intros He H0 Hs. rewrite for_uint_run by lia. apply run_inv; auto. lia.
Qed.

Section Rep.
Context {V : Type}.
Implicit Types m : mem V.

(** Equal except for the contents (and liveness) of some blocks. *)
Definition same_but (bs : list nat) m m' : Prop :=
  length (blocks m') = length (blocks m) /\ fails m' = fails m /\ tick m' = tick m /\
  forall b, ~ In b bs -> block m' b = block m b.

Lemma same_but_refl bs m : same_but bs m m.
Proof. repeat split. Qed.

Lemma same_but_trans bs m1 m2 m3 : same_but bs m1 m2 -> same_but bs m2 m3 -> same_but bs m1 m3.
Proof.
  intros (A1 & A2 & A3 & A4) (B1 & B2 & B3 & B4). repeat split; try congruence.
  intros b Hb. rewrite B4, A4 by assumption. reflexivity.
Qed.

Lemma same_but_set bs m b x : In b bs -> same_but bs m (set_block m b x).
Proof.
  intros H. split; [apply blocks_set|]. split; [reflexivity|]. split; [reflexivity|].
  intros b' Hb'. apply block_set_ne. intros ->. contradiction.
Qed.

Lemma same_but_incl bs bs' m m' : incl bs bs' -> same_but bs m m' -> same_but bs' m m'.
Proof. intros H (A1 & A2 & A3 & A4). repeat split; auto. Qed.

(** A live block of a given length. *)
Definition blen m (b : nat) (len : Z) : Prop :=
  exists cs, block m b = Some cs /\ Z.of_nat (length cs) = len.

Lemma blen_lt m b len : blen m b len -> (b < length (blocks m))%nat.
Proof. intros (cs & H & _). now apply block_lt in H. Qed.

Lemma padd_blen m b len off k :
  blen m b len -> 0 <= off + k <= len -> padd m (Ptr b off) k = Ok (Ptr b (off + k)).
Proof. intros (cs & H & HL) Hk. eapply padd_ok; [eassumption|]. lia. Qed.

Lemma pidx_blen m b len off k :
  blen m b len -> 0 <= off + k < len -> pidx m (Ptr b off) k = Ok (Ptr b (off + k)).
Proof. intros (cs & H & HL) Hk. eapply pidx_ok; [eassumption|]. lia. Qed.

Lemma blen_same bs m m' b len : ~ In b bs -> same_but bs m m' -> blen m b len -> blen m' b len.
Proof. intros Hb (_ & _ & _ & H) (cs & E & HL). exists cs. rewrite H by assumption. auto. Qed.

Lemma blen_new m len : 0 <= len -> blen (mem_new m len) (length (blocks m)) len.
Proof. intros H. eexists. split; [apply block_new_new|]. rewrite repeat_length. lia. Qed.

Lemma blen_new_old m len b len' : blen m b len' -> blen (mem_new m len) b len'.
Proof. intros (cs & H & HL). exists cs. split; [now apply block_new_some|assumption]. Qed.

(** A table block: cell [k] points at offset [k * w + o] of the block below, for [k < c]. *)
Definition table m (t : nat) (len : Z) (c : Z) (b : nat) (w o : Z) : Prop :=
  exists cs, block m t = Some cs /\ Z.of_nat (length cs) = len /\
             forall k, 0 <= k < c -> znth cs k = Some (CPtr (Ptr b (k * w + o))).

Lemma table_blen m t len c b w o : table m t len c b w o -> blen m t len.
Proof. intros (cs & H & HL & _). exists cs. auto. Qed.

Lemma table_load m t len c b w o k :
  table m t len c b w o -> 0 <= k < c -> load_ptr m (Ptr t k) = Ok (Ptr b (k * w + o)).
Proof. intros (cs & H & _ & HC) Hk. eapply load_ptr_ok; [eassumption|]. now apply HC. Qed.

Lemma table_same bs m m' t len c b w o :
  ~ In t bs -> same_but bs m m' -> table m t len c b w o -> table m' t len c b w o.
Proof. intros Ht (_ & _ & _ & H) (cs & E & HL). exists cs. rewrite H by assumption. auto. Qed.

Lemma table_new_old m len t l c b w o : table m t l c b w o -> table (mem_new m len) t l c b w o.
Proof. intros (cs & H & HL). exists cs. split; [now apply block_new_some|assumption]. Qed.

End Rep.

Lemma umul_small a b : 0 <= a * b < UINT_MOD -> umul a b = a * b.
Proof. intros H. unfold umul. now apply uwrap_small. Qed.

Lemma uadd_small a b : 0 <= a + b < UINT_MOD -> uadd a b = a + b.
Proof. intros H. unfold uadd. now apply uwrap_small. Qed.

(** Row [c] of [a] rows of length [b]. *)
Lemma mul_step c a b : 0 <= c < a -> 0 <= b -> 0 <= c * b /\ c * b + b <= a * b.
Proof. intros H Hb. split; nia. Qed.

Lemma mul_step2 c w a b : 0 <= c -> 0 <= w -> c + w <= a -> 0 <= b -> 0 <= c * b /\ c * b + w * b <= a * b.
Proof. intros. split; nia. Qed.

(** [pt0] slots, a list of pointers. *)
Definition slots_upto (l : list ptr) (c : Z) (t : nat) (w o : Z) : Prop :=
  forall k, 0 <= k < c -> znth l k = Some (Ptr t (k * w + o)).

(** Split conjunctions without unfolding definitions. *)
Ltac conjs := repeat match goal with |- _ /\ _ => split end.

Ltac mon := unfold bind, get_snd, upd_snd, on_fst, lift, gets, ret, throw;
  cbn [fst snd].

(** Single steps of a stateful computation. *)
Section Steps.
Context {S T A B : Type}.
Lemma b_get (f : T -> M (S * T) B) s o : bind get_snd f (s, o) = f o (s, o).
Proof. reflexivity. Qed.
Lemma b_upd (g : T -> T) (f : unit -> M (S * T) B) s o : bind (upd_snd g) f (s, o) = f tt (s, g o).
Proof. reflexivity. Qed.
Lemma b_fst (x : M S A) (f : A -> M (S * T) B) s o :
  bind (on_fst x) f (s, o) =
  match x s with Ret s' a => f a (s', o) | Thr s' e => Thr (s', o) e | Undef => Undef end.
Proof. unfold bind, on_fst. now destruct (x s). Qed.
Lemma b_ok (a : A) (f : A -> M S B) s : bind (lift (Ok a)) f s = f a s.
Proof. reflexivity. Qed.
End Steps.

Lemma b_gets {V A B T} (g : mem V -> res A) (f : A -> M (mem V * T) B) m o :
  bind (on_fst (gets g)) f (m, o) =
  match g m with Ok a => f a (m, o) | Err e => Thr (m, o) e | UB => Undef end.
Proof. unfold bind, on_fst, gets. now destruct (g m). Qed.

Section Rep2.
Context {V : Type}.
Implicit Types m : mem V.

(** Storing into the first unused cell of a table. *)
Lemma table_store m t len c b w o x :
  table m t len c b w o -> 0 <= c < len ->
  exists m1, store (Ptr t c) (CPtr x) m = Ret m1 tt /\ same_but [t] m m1 /\
    table m1 t len c b w o /\ load_ptr m1 (Ptr t c) = Ok x /\
    (x = Ptr b (c * w + o) -> table m1 t len (c + 1) b w o).
Proof.
  intros (cs & Hb & HL & HC) Hc. rewrite (store_ok _ _ _ _ _ Hb) by lia.
  eexists. split; [reflexivity|]. split; [apply same_but_set; now left|].
  set (m1 := set_block _ _ _).
  assert (Hb1 : block m1 t = Some (upd cs (Z.to_nat c) (CPtr x))) by (eapply block_set_eq; eassumption).
  split; [|split].
  - eexists. split; [exact Hb1|]. rewrite upd_length. split; [assumption|].
    intros k Hk. rewrite znth_upd by lia. destruct (k =? c) eqn:E; zcmp; [lia|]. now apply HC.
  - eapply load_ptr_ok; [exact Hb1|]. rewrite znth_upd by lia. now rewrite Z.eqb_refl.
  - intros ->. eexists. split; [exact Hb1|]. rewrite upd_length. split; [assumption|].
    intros k Hk. rewrite znth_upd by lia. destruct (k =? c) eqn:E; zcmp; [now subst|]. apply HC. lia.
Qed.

Lemma table_start m t len b w o : blen m t len -> table m t len 0 b w o.
Proof. intros (cs & H & HL). exists cs. split; [assumption|]. split; [assumption|]. intros; lia. Qed.

Lemma b_store {B T} m m1 p c (f : unit -> M (mem V * T) B) (o : T) :
  store p c m = Ret m1 tt -> bind (on_fst (store p c)) f (m, o) = f tt (m1, o).
Proof. intros H. rewrite b_fst, H. reflexivity. Qed.

Lemma slots_upto_0 l t w o : slots_upto l 0 t w o.
Proof. intros k Hk. lia. Qed.

Lemma slots_upto_upd l c t w o x k :
  slots_upto l c t w o -> c <= k < Z.of_nat (length l) -> slots_upto (upd l (Z.to_nat k) x) c t w o.
Proof. intros H Hk j Hj. rewrite znth_upd by lia. destruct (j =? k) eqn:E; zcmp; [lia|]. now apply H. Qed.

Lemma slots_upto_next l c t w o :
  slots_upto l c t w o -> 0 <= c < Z.of_nat (length l) ->
  slots_upto (upd l (Z.to_nat c) (Ptr t (c * w + o))) (c + 1) t w o.
Proof.
  intros H Hc j Hj. rewrite znth_upd by lia. destruct (j =? c) eqn:E; zcmp; [now subst|]. apply H. lia.
Qed.

End Rep2.
