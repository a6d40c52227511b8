(** C82: mirror symmetry of Example_D1_heat: kept in exact arithmetic, lost in [double].

    [heat1], [lapQ], [advQ] as in P_HeatQ.v, [lapD], [advD] as in P_HeatD.v.  The mirror image of point [i] is [N - 1 - i]. *)

From Coq Require Import ZArith QArith List Bool Lia.
From Verif Require Import Base M_Bytes M_Scan M_Flags M_Loop M_Reduce M_FSum M_FMul M_Heap M_World M_Client M_TimeLoop M_HeatD
  Spec_Tec Spec Spec_Loop Spec_Array Spec_Hist Spec_Reach Spec_Client Spec_FSum Spec_HeatQ L_Mirror L_MirrorD.
From Verif Require Import M_Examples.
From Verif Require P_Client.
Import ListNotations.
Open Scope Z_scope.

Theorem C82_mirror_1D F chk N reps k (xf : Z -> Q) cosf exact A dt :
  2 <= N <= 1073741824 -> 1 <= reps < UINT_MOD -> (forall t, (t < 3)%nat -> F t = false) ->
  (forall i, 0 <= i < N -> (cosf (xf (N - 1 - i)%Z) == cosf (xf i))%Q) ->
  exists h w aw v, heat1 chk N reps k xf cosf exact (lapQ A) (advQ dt) (start F) = Ret w tt /\ after F h w aw /\ intact aw /\
    (forall i, 0 <= i < N -> cell w (u1 0 i) (Some (v i))) /\ forall i, 0 <= i < N -> (v (N - 1 - i)%Z == v i)%Q.
Proof.
  intros HN Hr HF H. destruct (P_Client.C50_heat_1D F chk N reps k xf cosf exact (lapQ A) (advQ dt) HN Hr HF) as (h & w & aw & E & HA & HI & HC).
  exists h, w, aw, (Nat.iter k (heat_step N (lapQ A) (advQ dt)) (fun i => cosf (xf i))). split; [exact E|]. split; [exact HA|]. split; [exact HI|].
  split; [intros i Hi; exact (proj1 (HC i Hi))|]. apply iter_mirror; [lia|exact H].
Qed.
Print Assumptions C82_mirror_1D.

(** In [double] the sum [(a - 2 b) + c] is not that of the mirror image, [(c - 2 b) + a]: 4 points, one pass,
    [a_hh = 2], [dt = 1/4], temperatures 53364 outside and 19 2^-40 inside. *)
Theorem C82_mirror_refuted : exists (f : Z -> Z) A dt,
  num64 A = Fin (2 * 2 ^ 1074) /\ num64 dt = Fin (2 ^ 1072) /\
  (forall i, 0 <= i < 4 -> f (4 - 1 - i) = f i) /\ (forall i, exists y, num64 (f i) = Fin y) /\
  forall F chk exact, (forall t, (t < 3)%nat -> F t = false) ->
  exists h w aw v v' y y', heat1 chk 4 1 1 (fun i => i) f exact (lapD A) (advD dt) (start F) = Ret w tt /\ after F h w aw /\ intact aw /\
    cell w (u1 0 1) (Some v) /\ cell w (u1 0 (4 - 1 - 1)) (Some v') /\ num64 v = Fin y /\ num64 v' = Fin y' /\ y < y'.
Proof.
  set (f := fun i : Z => if (i =? 1) || (i =? 2) then 4445897257144811520 else 4677567105896284160).
  exists f, 4611686018427387904, 4598175219545276416. split; [reflexivity|]. split; [reflexivity|].
  split. { intros i Hi. unfold f. destruct (Z.eqb_spec (4 - 1 - i) 1), (Z.eqb_spec (4 - 1 - i) 2), (Z.eqb_spec i 1), (Z.eqb_spec i 2); cbn; reflexivity || lia. }
  split. { intros i. unfold f. destruct (_ || _); eexists; reflexivity. }
  intros F chk exact HF.
  destruct (P_Client.C50_heat_1D F chk 4 1 1 (fun i => i) f exact (lapD 4611686018427387904) (advD 4598175219545276416) ltac:(lia) ltac:(lia) HF) as (h & w & aw & E & HA & HI & HC).
  pose proof (proj1 (HC 1 ltac:(lia))) as C1. pose proof (proj1 (HC 2 ltac:(lia))) as C2.
  assert (E1 : Nat.iter 1 (heat_step 4 (lapD 4611686018427387904) (advD 4598175219545276416)) (fun i => f i) 1 = 4673063506268913666) by exact left_value.
  assert (E2 : Nat.iter 1 (heat_step 4 (lapD 4611686018427387904) (advD 4598175219545276416)) (fun i => f i) 2 = 4673063506268913667) by exact right_value.
  rewrite E1 in C1. rewrite E2 in C2. exists h, w, aw, 4673063506268913666, 4673063506268913667, (7334292313079810 * 2 ^ 1036), (7334292313079811 * 2 ^ 1036).
  split; [exact E|]. split; [exact HA|]. split; [exact HI|]. split; [exact C1|]. split; [exact C2|]. split; [reflexivity|]. split; reflexivity.
Qed.
Print Assumptions C82_mirror_refuted.

(** A symmetric initial state that is not constant. *)
Example C82_example : forall i, 0 <= i < 5 -> ((fun i => inject_Z (i * (4 - i)%Z)) (5 - 1 - i)%Z == (fun i => inject_Z (i * (4 - i)%Z)) i)%Q.
Proof. intros i Hi. cbv beta. replace ((5 - 1 - i) * (4 - (5 - 1 - i))) with (i * (4 - i)) by ring. reflexivity. Qed.
