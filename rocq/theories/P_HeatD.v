(** C79: Example_D1_heat in [double] arithmetic stays finite, and stays bounded up to rounding.

    [heat1 chk N reps k ..] is Example_D1_heat with [k] passes of the time loop (M_Examples.v), [heat1_run fuel ..] the same
    with the loop over [flowtime] in [double] (M_TimeLoop.v).  The elements are bit patterns of [double]; [lapD A],
    [advD dt] are the right hand sides of Example_D1_heat.cpp:57, 60, every operation rounded (M_HeatD.v); [a_hh1 N],
    [dt1 N] are [a_hh] and [dt] of the file.  Numbers are in units of 2^-1074: [2 ^ 1074] stands for 1. *)

From Coq Require Import ZArith List Bool Lia.
From Verif Require Import Base M_Bytes M_Scan M_Flags M_Loop M_Reduce M_FSum M_FMul M_Heap M_World M_Client M_TimeLoop M_HeatD
  Spec_Tec Spec Spec_Loop Spec_Array Spec_Hist Spec_Reach Spec_Client Spec_FSum Spec_TimeLoop L_HeatRun L_HeatD.
From Verif Require Import M_Examples.
From Verif Require P_Client.
Import ListNotations.
Open Scope Z_scope.

(** Any coefficients with [0 <= A * dt <= 1/2]: after [k] passes the values exceed the bound of the initial values at most
    by the factor 1 / (1 - k 2^-48). *)
Theorem C79_passes F chk N reps k (xf : Z -> Z) cosf exact A dt a d m :
  2 <= N <= 1073741824 -> 1 <= reps < UINT_MOD -> (forall t, (t < 3)%nat -> F t = false) -> Z.of_nat k <= 2 ^ 47 ->
  0 <= A < 2 ^ 64 -> 0 <= dt < 2 ^ 64 -> num64 A = Fin a -> num64 dt = Fin d ->
  0 <= a <= 2 ^ 50 * 2 ^ 1074 -> 0 <= d <= 4 * 2 ^ 1074 -> 2 * (a * d) <= 2 ^ 1074 * 2 ^ 1074 ->
  3 * 2 ^ 53 <= m -> m <= 2 ^ 35 * 2 ^ 1074 ->
  (forall i, 0 <= i < N -> exists y, num64 (cosf (xf i)) = Fin y /\ 0 <= cosf (xf i) < 2 ^ 64 /\ Z.abs y <= m) ->
  exists h w aw, heat1 chk N reps k xf cosf exact (lapD A) (advD dt) (start F) = Ret w tt /\ after F h w aw /\ intact aw /\
    forall i, 0 <= i < N -> exists v x, cell w (u1 0 i) (Some v) /\ num64 v = Fin x /\ (2 ^ 48 - Z.of_nat k) * Z.abs x <= 2 ^ 48 * m.
Proof.
  intros HN Hr HF Hk RA Rd EA Ed Ha Hd HP M1 M2 H.
  destruct (P_Client.C50_heat_1D F chk N reps k xf cosf exact (lapD A) (advD dt) HN Hr HF) as (h & w & aw & E & HA & HI & HC).
  exists h, w, aw. split; [exact E|]. split; [exact HA|]. split; [exact HI|]. intros i Hi.
  destruct (iterD N A dt a d m (proj1 HN) RA Rd EA Ed Ha Hd HP M1 M2 k (fun i => cosf (xf i)) Hk H i Hi) as (x & Ex & _ & Lx).
  eexists. exists x. split; [exact (proj1 (HC i Hi))|]. split; [exact Ex|exact Lx].
Qed.
Print Assumptions C79_passes.

(** The program with its own coefficients and its own number of passes. *)
Theorem C79_heat_1D F chk N reps (xf : Z -> Z) cosf exact m t0 :
  2 <= N <= 2 ^ 23 -> 1 <= reps < UINT_MOD -> (forall t, (t < 3)%nat -> F t = false) ->
  3 * 2 ^ 53 <= m -> m <= 2 ^ 35 * 2 ^ 1074 ->
  (forall i, 0 <= i < N -> exists y, num64 (cosf (xf i)) = Fin y /\ 0 <= cosf (xf i) < 2 ^ 64 /\ Z.abs y <= m) ->
  exists k, Z.of_nat k <= 2 ^ 47 /\
  forall fuel, (k <= fuel)%nat -> exists h w aw t,
    heat1_run chk fuel N reps xf cosf exact (lapD (a_hh1 N)) (advD (dt1 N)) (start F, t0) = Ret (w, t) tt /\ after F h w aw /\ intact aw /\
    step t = uwrap (Z.of_nat k) /\
    forall i, 0 <= i < N -> exists v x, cell w (u1 0 i) (Some v) /\ num64 v = Fin x /\
      (2 ^ 48 - Z.of_nat k) * Z.abs x <= 2 ^ 48 * m /\ Z.abs x <= 2 * m.
Proof.
  intros HN Hr HF M1 M2 H. destruct (few_passes N HN) as (k & Hk & K1 & B & C). exists k. split; [exact Hk|]. intros fuel Hf.
  destruct (consts1 N HN) as (a & d & EA & Ed & RA & Rd & Ha & Hd & HP). change (2 ^ 23) with 8388608 in HN.
  destruct (heat1_with F chk N reps k xf cosf exact (lapD (a_hh1 N)) (advD (dt1 N)) t0 fuel ltac:(lia) Hr HF K1 B C Hf) as (h & w & aw & t & E & D & I & (T1 & _) & G).
  exists h, w, aw, t. split; [exact E|]. split; [exact D|]. split; [exact I|]. split; [exact T1|]. intros i Hi.
  destruct (iterD N (a_hh1 N) (dt1 N) a d m (proj1 HN) RA Rd EA Ed Ha Hd HP M1 M2 k (fun i => cosf (xf i)) Hk H i Hi) as (x & Ex & _ & Lx).
  eexists. exists x. split; [exact (proj1 (G i Hi))|]. split; [exact Ex|]. split; [exact Lx|].
  clear - Lx Hk. pose proof (Z.abs_nonneg x) as X. revert Lx X. generalize (Z.abs x). intros y Lx X. change (2 ^ 48) with (2 * 2 ^ 47) in Lx. assert (HC : 0 < 2 ^ 47) by reflexivity. revert Lx Hk HC. generalize (2 ^ 47). intros. nia.
Qed.
Print Assumptions C79_heat_1D.

(** Initial values 1, -1, 1, -1, .. on 101 points. *)
Example C79_example : exists k, Z.of_nat k <= 2 ^ 47 /\
  forall fuel, (k <= fuel)%nat -> exists h w aw t,
    heat1_run true fuel 101 5 (fun i => i) (fun i => if Z.even i then of_whole 1 else of_whole (-1)) (fun _ => 0)
      (lapD (a_hh1 101)) (advD (dt1 101)) (start (fun _ => false), TS 0 0 0 []) = Ret (w, t) tt /\ after (fun _ => false) h w aw /\ intact aw /\
    step t = uwrap (Z.of_nat k) /\
    forall i, 0 <= i < 101 -> exists v x, cell w (u1 0 i) (Some v) /\ num64 v = Fin x /\
      (2 ^ 48 - Z.of_nat k) * Z.abs x <= 2 ^ 48 * 2 ^ 1074 /\ Z.abs x <= 2 * 2 ^ 1074.
Proof.
  apply C79_heat_1D; try (split; [discriminate|]; reflexivity || discriminate); try reflexivity; try discriminate.
  intros i Hi. destruct (Z.even i).
  - exists (2 ^ 1074). split; [reflexivity|]. split; [split; [discriminate|reflexivity]|discriminate].
  - exists (- 2 ^ 1074). split; [reflexivity|]. split; [split; [discriminate|reflexivity]|discriminate].
Qed.
