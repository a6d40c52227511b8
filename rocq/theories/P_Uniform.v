(** C81: Example_D1_heat in [double] arithmetic keeps a uniform temperature exactly.

    [heat1], [heat1_run], [lapD], [advD], [a_hh1], [dt1] as in P_HeatD.v; numbers are in units of 2^-1074. *)

From Coq Require Import ZArith List Bool Lia.
From Verif Require Import Base M_Bytes M_Scan M_Flags M_Loop M_Reduce M_FSum M_FMul M_Heap M_World M_Client M_TimeLoop M_HeatD
  Spec_Tec Spec Spec_Loop Spec_Array Spec_Hist Spec_Reach Spec_Client Spec_FSum Spec_TimeLoop L_HeatRun L_HeatD L_Uniform.
From Verif Require Import M_Examples.
From Verif Require P_Client.
Import ListNotations.
Open Scope Z_scope.

(** Any finite coefficients, any number of passes. *)
Theorem C81_uniform F chk N reps k (xf : Z -> Z) cosf exact A dt a d y :
  2 <= N <= 1073741824 -> 1 <= reps < UINT_MOD -> (forall t, (t < 3)%nat -> F t = false) ->
  0 <= A < 2 ^ 64 -> 0 <= dt < 2 ^ 64 -> num64 A = Fin a -> num64 dt = Fin d -> Z.abs y <= 2 ^ 900 * 2 ^ 1074 ->
  (forall i, 0 <= i < N -> num64 (cosf (xf i)) = Fin y /\ 0 <= cosf (xf i) < 2 ^ 64) ->
  exists h w aw, heat1 chk N reps k xf cosf exact (lapD A) (advD dt) (start F) = Ret w tt /\ after F h w aw /\ intact aw /\
    forall i, 0 <= i < N -> exists v, cell w (u1 0 i) (Some v) /\ num64 v = Fin y.
Proof.
  intros HN Hr HF RA Rd EA Ed L H.
  destruct (P_Client.C50_heat_1D F chk N reps k xf cosf exact (lapD A) (advD dt) HN Hr HF) as (h & w & aw & E & HA & HI & HC).
  exists h, w, aw. split; [exact E|]. split; [exact HA|]. split; [exact HI|]. intros i Hi. eexists. split; [exact (proj1 (HC i Hi))|].
  apply (uniform_iter N A dt a d y k (fun i => cosf (xf i)) (proj1 HN) (conj EA RA) (conj Ed Rd) L H i Hi).
Qed.
Print Assumptions C81_uniform.

(** The program with its own coefficients and its own number of passes. *)
Theorem C81_heat_1D F chk N reps (xf : Z -> Z) cosf exact y t0 :
  2 <= N <= 2 ^ 23 -> 1 <= reps < UINT_MOD -> (forall t, (t < 3)%nat -> F t = false) -> Z.abs y <= 2 ^ 900 * 2 ^ 1074 ->
  (forall i, 0 <= i < N -> num64 (cosf (xf i)) = Fin y /\ 0 <= cosf (xf i) < 2 ^ 64) ->
  exists k, forall fuel, (k <= fuel)%nat -> exists h w aw t,
    heat1_run chk fuel N reps xf cosf exact (lapD (a_hh1 N)) (advD (dt1 N)) (start F, t0) = Ret (w, t) tt /\ after F h w aw /\ intact aw /\
    forall i, 0 <= i < N -> exists v, cell w (u1 0 i) (Some v) /\ num64 v = Fin y.
Proof.
  intros HN Hr HF L H. destruct (few_passes N HN) as (k & Hk & K1 & B & C). exists k. intros fuel Hf.
  destruct (consts1 N HN) as (a & d & EA & Ed & RA & Rd & _). change (2 ^ 23) with 8388608 in HN.
  destruct (heat1_with F chk N reps k xf cosf exact (lapD (a_hh1 N)) (advD (dt1 N)) t0 fuel ltac:(lia) Hr HF K1 B C Hf) as (h & w & aw & t & E & D & I & _ & G).
  exists h, w, aw, t. split; [exact E|]. split; [exact D|]. split; [exact I|]. intros i Hi. eexists. split; [exact (proj1 (G i Hi))|].
  apply (uniform_iter N (a_hh1 N) (dt1 N) a d y k (fun i => cosf (xf i)) (proj1 HN) (conj EA RA) (conj Ed Rd) L H i Hi).
Qed.
Print Assumptions C81_heat_1D.

(** The temperature -1 on 101 points. *)
Example C81_example : exists k, forall fuel, (k <= fuel)%nat -> exists h w aw t,
  heat1_run true fuel 101 5 (fun i => i) (fun _ => of_whole (-1)) (fun _ => 0)
    (lapD (a_hh1 101)) (advD (dt1 101)) (start (fun _ => false), TS 0 0 0 []) = Ret (w, t) tt /\ after (fun _ => false) h w aw /\ intact aw /\
  forall i, 0 <= i < 101 -> exists v, cell w (u1 0 i) (Some v) /\ num64 v = Fin (- 2 ^ 1074).
Proof.
  apply C81_heat_1D; try (split; [discriminate|]; reflexivity || discriminate); try reflexivity; try discriminate.
  intros i Hi. split; [reflexivity|]. split; [discriminate|reflexivity].
Qed.
