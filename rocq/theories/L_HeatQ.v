(** Lemmas for P_HeatQ.v *)

From Coq Require Import ZArith QArith Qabs List Lia Lqa.
From Verif Require Import Base Spec_Loop Spec_Client Spec_HeatQ.
Import ListNotations.
Open Scope Q_scope.

(** A weighted mean stays in the range. *)
Lemma mean_range m M r a b c : 0 <= r -> r <= 1 # 2 -> m <= a <= M -> m <= b <= M -> m <= c <= M -> m <= b + r * (a - 2 * b + c) <= M.
Proof.
  intros R0 R1 [A1 A2] [B1 B2] [C1 C2].
  assert (K1 : 0 <= r * (a - m)) by (apply Qmult_le_0_compat; lra). assert (K2 : 0 <= r * (M - a)) by (apply Qmult_le_0_compat; lra).
  assert (K3 : 0 <= r * (c - m)) by (apply Qmult_le_0_compat; lra). assert (K4 : 0 <= r * (M - c)) by (apply Qmult_le_0_compat; lra).
  assert (K5 : 0 <= (1 - 2 * r) * (b - m)) by (apply Qmult_le_0_compat; lra). assert (K6 : 0 <= (1 - 2 * r) * (M - b)) by (apply Qmult_le_0_compat; lra).
  split; lra.
Qed.

Lemma step_range N A dt m M f : (2 <= N)%Z -> 0 <= A * dt <= 1 # 2 -> (forall i, (0 <= i < N)%Z -> m <= f i <= M) ->
  forall i, (0 <= i < N)%Z -> m <= heat_step N (lapQ A) (advQ dt) f i <= M.
Proof.
  intros HN [R0 R1] H i Hi. unfold heat_step, advQ, lapQ.
  assert (X : forall j, (-1 <= j <= N)%Z -> m <= ext N f j <= M).
  { intros j Hj. unfold ext. destruct (Z.ltb_spec j 0); [apply H; lia|]. destruct (Z.leb_spec N j); apply H; lia. }
  pose proof (mean_range m M (A * dt) _ _ _ R0 R1 (X (i - 1)%Z ltac:(lia)) (H i Hi) (X (i + 1)%Z ltac:(lia))) as [K1 K2].
  revert K1 K2. generalize (ext N f (i - 1)), (ext N f (i + 1)), (f i). intros a c b K1 K2.
  assert (E : b + dt * (A * (a - 2 * b + c)) == b + A * dt * (a - 2 * b + c)) by ring. rewrite E. split; assumption.
Qed.

Lemma iter_range N A dt m M k f : (2 <= N)%Z -> 0 <= A * dt <= 1 # 2 -> (forall i, (0 <= i < N)%Z -> m <= f i <= M) ->
  forall i, (0 <= i < N)%Z -> m <= Nat.iter k (heat_step N (lapQ A) (advQ dt)) f i <= M.
Proof. intros HN HR H. induction k as [|k IH]; [exact H|]. cbn [Nat.iter nat_rect]. apply step_range; assumption. Qed.

(** Two dimensions. *)
Lemma mean2_range M r s a b c d e : 0 <= r -> 0 <= s -> r + s <= 1 # 2 -> - M <= a <= M -> - M <= b <= M -> - M <= c <= M -> - M <= d <= M -> - M <= e <= M ->
  - M <= b + (r * (a - 2 * b + c) + s * (d - 2 * b + e)) <= M.
Proof.
  intros R0 S0 RS [A1 A2] [B1 B2] [C1 C2] [D1 D2] [E1 E2].
  assert (K : forall x y, 0 <= x -> 0 <= y -> 0 <= x * y) by (intros; apply Qmult_le_0_compat; assumption).
  pose proof (K r (a + M) R0 ltac:(lra)). pose proof (K r (M - a) R0 ltac:(lra)). pose proof (K r (c + M) R0 ltac:(lra)). pose proof (K r (M - c) R0 ltac:(lra)).
  pose proof (K s (d + M) S0 ltac:(lra)). pose proof (K s (M - d) S0 ltac:(lra)). pose proof (K s (e + M) S0 ltac:(lra)). pose proof (K s (M - e) S0 ltac:(lra)).
  pose proof (K (1 - 2 * (r + s)) (b + M) ltac:(lra) ltac:(lra)). pose proof (K (1 - 2 * (r + s)) (M - b) ltac:(lra) ltac:(lra)). clear K. split; lra.
Qed.

Lemma step2_range Nx Ny A B dt M f : (2 <= Nx)%Z -> (2 <= Ny)%Z -> 0 <= A * dt -> 0 <= B * dt -> A * dt + B * dt <= 1 # 2 ->
  (forall i j, (0 <= i < Nx)%Z -> (0 <= j < Ny)%Z -> - M <= f i j <= M) ->
  forall i j, (0 <= i < Nx)%Z -> (0 <= j < Ny)%Z -> - M <= heat_step2 Nx Ny Qopp (lapQ A) (lapyQ B) (advQ dt) f i j <= M.
Proof.
  intros HX HY RA RB R H i j Hi Hj. unfold heat_step2, advQ, lapQ, lapyQ. cbv zeta.
  assert (X : forall k, (-1 <= k <= Nx)%Z -> - M <= ext_x Qopp Nx f k j <= M).
  { intros k Hk. unfold ext_x. destruct (Z.ltb_spec k 0); [destruct (H (- k)%Z j); lia || split; lra|].
    destruct (Z.leb_spec Nx k); [destruct (H (2 * (Nx - 1) - k)%Z j); lia || split; lra|apply H; lia]. }
  assert (Y : forall k, (-1 <= k <= Ny)%Z -> - M <= ext_y Ny f i k <= M).
  { intros k Hk. unfold ext_y, ext. destruct (Z.ltb_spec k 0); [apply H; lia|]. destruct (Z.leb_spec Ny k); apply H; lia. }
  pose proof (mean2_range M (A * dt) (B * dt) _ _ _ _ _ RA RB R (X (i - 1)%Z ltac:(lia)) (H i j Hi Hj) (X (i + 1)%Z ltac:(lia)) (Y (j - 1)%Z ltac:(lia)) (Y (j + 1)%Z ltac:(lia))) as [K1 K2].
  revert K1 K2. generalize (ext_x Qopp Nx f (i - 1) j), (ext_x Qopp Nx f (i + 1) j), (ext_y Ny f i (j - 1)), (ext_y Ny f i (j + 1)), (f i j). intros a c d e b K1 K2.
  assert (E : b + dt * (A * (a - 2 * b + c) + B * (d - 2 * b + e)) == b + (A * dt * (a - 2 * b + c) + B * dt * (d - 2 * b + e))) by ring. rewrite E. split; assumption.
Qed.

Lemma iter2_range Nx Ny A B dt M k f : (2 <= Nx)%Z -> (2 <= Ny)%Z -> 0 <= A * dt -> 0 <= B * dt -> A * dt + B * dt <= 1 # 2 ->
  (forall i j, (0 <= i < Nx)%Z -> (0 <= j < Ny)%Z -> - M <= f i j <= M) ->
  forall i j, (0 <= i < Nx)%Z -> (0 <= j < Ny)%Z -> - M <= Nat.iter k (heat_step2 Nx Ny Qopp (lapQ A) (lapyQ B) (advQ dt)) f i j <= M.
Proof. intros HX HY RA RB R H. induction k as [|k IH]; [exact H|]. cbn [Nat.iter nat_rect]. apply step2_range; assumption. Qed.

(** ** The heat content *)

Lemma qsum_app l1 l2 : qsum (l1 ++ l2) == qsum l1 + qsum l2.
Proof. unfold qsum. induction l1 as [|x l1 IH]; cbn [app fold_right]; [ring|]. rewrite IH. ring. Qed.

Lemma inner_sum N A dt f n : (2 <= N)%Z -> (Z.of_nat n <= N - 2)%Z ->
  qsum (map (heat_step N (lapQ A) (advQ dt) f) (zrange 1 (1 + Z.of_nat n))) ==
  qsum (map f (zrange 1 (1 + Z.of_nat n))) + A * dt * ((f (1 + Z.of_nat n)%Z - f (Z.of_nat n)) - (f 1%Z - f 0%Z)).
Proof.
  intros HN. induction n as [|n IH]; intros Hn.
  - cbn. ring.
  - assert (Z1 : zrange 1 (1 + Z.of_nat (S n)) = zrange 1 (1 + Z.of_nat n) ++ [(1 + Z.of_nat n)%Z]).
    { unfold zrange. replace (Z.to_nat (1 + Z.of_nat (S n) - 1)) with (S n) by lia. replace (Z.to_nat (1 + Z.of_nat n - 1)) with n by lia. rewrite seq_S, map_app. reflexivity. }
    rewrite Z1, !map_app, !qsum_app, IH by lia. cbn [map qsum fold_right]. unfold heat_step, advQ, lapQ, ext.
    destruct (Z.ltb_spec (1 + Z.of_nat n - 1) 0); [lia|]. destruct (Z.leb_spec N (1 + Z.of_nat n - 1)); [lia|].
    destruct (Z.ltb_spec (1 + Z.of_nat n + 1) 0); [lia|]. destruct (Z.leb_spec N (1 + Z.of_nat n + 1)); [lia|].
    replace (1 + Z.of_nat n - 1)%Z with (Z.of_nat n) by lia. replace (1 + Z.of_nat (S n))%Z with (1 + Z.of_nat n + 1)%Z by lia. replace (Z.of_nat (S n)) with (1 + Z.of_nat n)%Z by lia. ring.
Qed.

Lemma step_content N A dt f : (2 <= N)%Z -> heat_content N (heat_step N (lapQ A) (advQ dt) f) == heat_content N f.
Proof.
  intros HN. unfold heat_content. pose proof (inner_sum N A dt f (Z.to_nat (N - 2)) HN ltac:(lia)) as S. rewrite Z2Nat.id in S by lia.
  replace (1 + (N - 2))%Z with (N - 1)%Z in S by lia. rewrite S. clear S. unfold heat_step, advQ, lapQ, ext.
  change (0 - 1 <? 0)%Z with true. cbv iota. change (- (0 - 1))%Z with 1%Z. change (0 + 1 <? 0)%Z with false. cbv iota. destruct (Z.leb_spec N (0 + 1)); [lia|].
  destruct (Z.ltb_spec (N - 1 - 1) 0); [lia|]. destruct (Z.leb_spec N (N - 1 - 1)); [lia|]. destruct (Z.ltb_spec (N - 1 + 1) 0); [lia|]. destruct (Z.leb_spec N (N - 1 + 1)); [|lia].
  change (0 + 1)%Z with 1%Z. replace (2 * (N - 1) - (N - 1 + 1))%Z with (N - 2)%Z by lia. replace (N - 1 - 1)%Z with (N - 2)%Z by lia. field.
Qed.

Lemma iter_content N A dt k f : (2 <= N)%Z -> heat_content N (Nat.iter k (heat_step N (lapQ A) (advQ dt)) f) == heat_content N f.
Proof. intros HN. induction k as [|k IH]; [reflexivity|]. cbn [Nat.iter nat_rect]. rewrite step_content by exact HN. exact IH. Qed.
