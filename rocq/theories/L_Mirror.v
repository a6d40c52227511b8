(** Lemmas for P_Mirror.v *)

From Coq Require Import ZArith QArith List Lia Lqa.
From Verif Require Import Base Spec_Loop Spec_Client Spec_HeatQ.
Import ListNotations.
Open Scope Q_scope.

Lemma step_mirror N A dt f : (2 <= N)%Z -> (forall i, (0 <= i < N)%Z -> f (N - 1 - i)%Z == f i) ->
  forall i, (0 <= i < N)%Z -> heat_step N (lapQ A) (advQ dt) f (N - 1 - i)%Z == heat_step N (lapQ A) (advQ dt) f i.
Proof.
  intros HN H i Hi. unfold heat_step, advQ, lapQ.
  assert (X : forall j, (-1 <= j <= N)%Z -> ext N f (N - 1 - j)%Z == ext N f j).
  { intros j Hj. unfold ext. destruct (Z.ltb_spec j 0) as [L|L].
    - assert (j = -1)%Z by lia. subst j. destruct (Z.ltb_spec (N - 1 - -1) 0); [lia|]. destruct (Z.leb_spec N (N - 1 - -1)); [|lia].
      replace (2 * (N - 1) - (N - 1 - -1))%Z with (N - 1 - 1)%Z by lia. apply (H 1%Z). lia.
    - destruct (Z.leb_spec N j) as [L'|L'].
      + assert (j = N) by lia. subst j. destruct (Z.ltb_spec (N - 1 - N) 0); [|lia]. replace (- (N - 1 - N))%Z with 1%Z by lia. replace (2 * (N - 1) - N)%Z with (N - 1 - 1)%Z by lia. symmetry. apply (H 1%Z). lia.
      + destruct (Z.ltb_spec (N - 1 - j) 0); [lia|]. destruct (Z.leb_spec N (N - 1 - j)); [lia|]. apply H. lia. }
  pose proof (X (i + 1)%Z ltac:(lia)) as X1. pose proof (X (i - 1)%Z ltac:(lia)) as X2. pose proof (H i Hi) as X3.
  replace (N - 1 - (i + 1))%Z with (N - 1 - i - 1)%Z in X1 by lia. replace (N - 1 - (i - 1))%Z with (N - 1 - i + 1)%Z in X2 by lia.
  rewrite X1, X2, X3. ring.
Qed.

Lemma iter_mirror N A dt k f : (2 <= N)%Z -> (forall i, (0 <= i < N)%Z -> f (N - 1 - i)%Z == f i) ->
  forall i, (0 <= i < N)%Z -> Nat.iter k (heat_step N (lapQ A) (advQ dt)) f (N - 1 - i)%Z == Nat.iter k (heat_step N (lapQ A) (advQ dt)) f i.
Proof. intros HN H. induction k as [|k IH]; [exact H|]. cbn [Nat.iter nat_rect]. apply step_mirror; assumption. Qed.
