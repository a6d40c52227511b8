(** C80: Example_D2_heat in [double] arithmetic stays finite, and stays bounded up to rounding.

    [heat2 chk Nx Ny reps k ..] is Example_D2_heat with [k] passes of the time loop (M_Examples.v), [heat2_run fuel ..] the
    same with the loop over [flowtime] in [double] (M_TimeLoop.v).  The elements are bit patterns of [double]; [lapD A],
    [lapyD B], [advD dt] are the right hand sides of Example_D2_heat.cpp:94, 97, 100, every operation rounded (M_HeatD.v,
    M_HeatD2.v), [fneg Double] the minus sign of lines 90-91.  Numbers are in units of 2^-1074. *)

From Coq Require Import ZArith List Bool Lia.
From Verif Require Import Base M_Bytes M_Scan M_Flags M_Loop M_Reduce M_FSum M_FMul M_Heap M_World M_Client M_TimeLoop M_HeatD M_HeatD2
  Spec_Tec Spec Spec_Loop Spec_Array Spec_Hist Spec_Reach Spec_Client Spec_FSum Spec_TimeLoop L_HeatRun L_HeatD2.
From Verif Require Import M_Examples.
From Verif Require P_Client.
Import ListNotations.
Open Scope Z_scope.

(** Any coefficients with [0 <= A * dt + B * dt <= 1/2]. *)
Theorem C80_passes F chk Nx Ny reps k (xf yf : Z -> Z) ini exact A B dt a b d m :
  2 <= Nx -> 2 <= Ny -> 2 * ((Nx + 2) * (Ny + 2)) < UINT_MOD -> 1 <= reps < UINT_MOD -> (forall t, (t < 6)%nat -> F t = false) ->
  Z.of_nat k <= 2 ^ 47 ->
  0 <= A < 2 ^ 64 -> 0 <= B < 2 ^ 64 -> 0 <= dt < 2 ^ 64 -> num64 A = Fin a -> num64 B = Fin b -> num64 dt = Fin d ->
  0 <= a <= 2 ^ 50 * 2 ^ 1074 -> 0 <= b <= 2 ^ 50 * 2 ^ 1074 -> 0 <= d <= 4 * 2 ^ 1074 -> 2 * ((a + b) * d) <= 2 ^ 1074 * 2 ^ 1074 ->
  3 * 2 ^ 53 <= m -> m <= 2 ^ 35 * 2 ^ 1074 ->
  (forall i j, 0 <= i < Nx -> 0 <= j < Ny ->
     exists y, num64 (ini (xf i) (yf j)) = Fin y /\ 0 <= ini (xf i) (yf j) < 2 ^ 64 /\ Z.abs y <= m) ->
  exists h w aw, heat2 chk Nx Ny reps k xf yf ini exact (fneg Double) (lapD A) (lapyD B) (advD dt) (start F) = Ret w tt /\
    after F h w aw /\ intact aw /\
    forall i j, 0 <= i < Nx -> 0 <= j < Ny -> exists v x, cell w (u2 0 i j) (Some v) /\ num64 v = Fin x /\
      (2 ^ 48 - Z.of_nat k) * Z.abs x <= 2 ^ 48 * m.
Proof.
  intros HNx HNy HM Hr HF Hk RA RB Rd EA EB Ed Ha Hb Hd HP M1 M2 H.
  destruct (P_Client.C51_heat_2D F chk Nx Ny reps k xf yf ini exact (fneg Double) (lapD A) (lapyD B) (advD dt) HNx HNy HM Hr HF) as (h & w & aw & E & HA & HI & HC).
  exists h, w, aw. split; [exact E|]. split; [exact HA|]. split; [exact HI|]. intros i j Hi Hj.
  destruct (iterD2 Nx Ny A B dt a b d m HNx HNy RA RB Rd EA EB Ed Ha Hb Hd HP M1 M2 k (fun i j => ini (xf i) (yf j)) Hk H i j Hi Hj) as (x & Ex & _ & Lx).
  eexists. exists x. split; [exact (proj1 (HC i j Hi Hj))|]. split; [exact Ex|exact Lx].
Qed.
Print Assumptions C80_passes.

(** The program with its own coefficients and its own number of passes. *)
Theorem C80_heat_2D F chk N reps (xf yf : Z -> Z) ini exact m t0 :
  1 <= N -> 2 * ((N + 3) * (2 * N + 3)) < UINT_MOD -> 1 <= reps < UINT_MOD -> (forall t, (t < 6)%nat -> F t = false) ->
  3 * 2 ^ 53 <= m -> m <= 2 ^ 35 * 2 ^ 1074 ->
  (forall i j, 0 <= i < N + 1 -> 0 <= j < 2 * N + 1 ->
     exists y, num64 (ini (xf i) (yf j)) = Fin y /\ 0 <= ini (xf i) (yf j) < 2 ^ 64 /\ Z.abs y <= m) ->
  exists k, Z.of_nat k <= 2 ^ 47 /\
  forall fuel, (k <= fuel)%nat -> exists h w aw t,
    heat2_run chk fuel N reps xf yf ini exact (fneg Double) (lapD (a_hh_x2 N)) (lapyD (a_hh_y2 N)) (advD (dt2 N)) (start F, t0) = Ret (w, t) tt /\
    after F h w aw /\ intact aw /\ step t = uwrap (Z.of_nat k) /\
    forall i j, 0 <= i < N + 1 -> 0 <= j < 2 * N + 1 -> exists v x, cell w (u2 0 i j) (Some v) /\ num64 v = Fin x /\
      (2 ^ 48 - Z.of_nat k) * Z.abs x <= 2 ^ 48 * m /\ Z.abs x <= 2 * m.
Proof.
  intros HN HM Hr HF M1 M2 H. assert (HN' : 1 <= N <= 2 ^ 23) by (change (2 ^ 23) with 8388608; split; [exact HN|]; clear - HN HM; nia).
  destruct (few_passes2 N HN') as (k & Hk & K1 & B & C). exists k. split; [exact Hk|]. intros fuel Hf.
  destruct (consts2 N HN') as (a & b & d & EA & EB & Ed & RA & RB & Rd & Ha & Hb & Hd & HP).
  destruct (heat2_with F chk N reps k xf yf ini exact (fneg Double) (lapD (a_hh_x2 N)) (lapyD (a_hh_y2 N)) (advD (dt2 N)) t0 fuel HN HM Hr HF K1 B C Hf) as (h & w & aw & t & E & D & I & (T1 & _) & G).
  exists h, w, aw, t. split; [exact E|]. split; [exact D|]. split; [exact I|]. split; [exact T1|]. intros i j Hi Hj.
  destruct (iterD2 (N + 1) (2 * N + 1) (a_hh_x2 N) (a_hh_y2 N) (dt2 N) a b d m ltac:(clear - HN; lia) ltac:(clear - HN; lia) RA RB Rd EA EB Ed Ha Hb Hd HP M1 M2 k (fun i j => ini (xf i) (yf j)) Hk H i j Hi Hj) as (x & Ex & _ & Lx).
  eexists. exists x. split; [exact (proj1 (G i j Hi Hj))|]. split; [exact Ex|]. split; [exact Lx|].
  clear - Lx Hk. pose proof (Z.abs_nonneg x) as X. revert Lx X. generalize (Z.abs x). intros y Lx X. change (2 ^ 48) with (2 * 2 ^ 47) in Lx. assert (HC : 0 < 2 ^ 47) by reflexivity. revert Lx Hk HC. generalize (2 ^ 47). intros. nia.
Qed.
Print Assumptions C80_heat_2D.

(** Initial values 1 and -1 in a chequerboard, [N = 500] as in the file. *)
Example C80_example : exists k, Z.of_nat k <= 2 ^ 47 /\
  forall fuel, (k <= fuel)%nat -> exists h w aw t,
    heat2_run true fuel 500 1 (fun i => i) (fun j => j) (fun i j => if Z.even (i + j) then of_whole 1 else of_whole (-1)) (fun _ _ => 0)
      (fneg Double) (lapD (a_hh_x2 500)) (lapyD (a_hh_y2 500)) (advD (dt2 500)) (start (fun _ => false), TS 0 0 0 []) = Ret (w, t) tt /\
    after (fun _ => false) h w aw /\ intact aw /\ step t = uwrap (Z.of_nat k) /\
    forall i j, 0 <= i < 500 + 1 -> 0 <= j < 2 * 500 + 1 -> exists v x, cell w (u2 0 i j) (Some v) /\ num64 v = Fin x /\
      (2 ^ 48 - Z.of_nat k) * Z.abs x <= 2 ^ 48 * 2 ^ 1074 /\ Z.abs x <= 2 * 2 ^ 1074.
Proof.
  apply C80_heat_2D; try (split; [discriminate|]; reflexivity || discriminate); try reflexivity; try discriminate.
  intros i j Hi Hj. destruct (Z.even (i + j)).
  - exists (2 ^ 1074). split; [reflexivity|]. split; [split; [discriminate|reflexivity]|discriminate].
  - exists (- 2 ^ 1074). split; [reflexivity|]. split; [split; [discriminate|reflexivity]|discriminate].
Qed.
