(** C77: the time loop of the heat examples with the arithmetic of [double]: that it ends, after how many passes, and what
    the programs write.

    [for_ever fuel dt stop print body] is the loop [for (;;)]; [fuel] bounds the passes that are followed, the loop that has
    not ended by then gives [Undef].  [passes k body] is [body] run [k] times.  [within n v p q]: the number [v] is [p / q]
    up to [n] factors between 1 - 2^-53 and 1 + 2^-53 (Spec_FMul.v); numbers are in units of 2^-1074.  [first_reach] is in
    Spec_TimeLoop.v. *)

From Coq Require Import ZArith Ascii String List Bool Lia.
From Verif Require Import Base M_Bytes M_Scan M_Flags M_Loop M_Reduce M_FSum M_FMul M_Print Spec_Tec Spec Spec_Loop Spec_FMul.
From Verif Require Import M_Heap M_World M_Client M_TimeLoop Spec_Array Spec_Hist Spec_Reach Spec_Client Spec_TimeLoop L_Base L_FSum L_FMul L_TimeLoop L_HeatRun.
From Verif Require M_Examples P_Access.
Import ListNotations.
Open Scope list_scope.
Open Scope Z_scope.

(** ** The loop *)

Theorem C77_ends {S} dt stop print v T (body : M S unit) s ls :
  num64 dt = Fin v -> num64 stop = Fin T -> 0 < v -> 0 < T -> T <= 2 ^ 50 * v -> T <= 2 ^ 90 * 2 ^ 1074 -> v <= 2 ^ 90 * 2 ^ 1074 ->
  (forall k, exists s', M_Examples.passes k body s = Ret s' tt) ->
  exists k s' t, first_reach 0 v (2 ^ 1074) T k /\ (Z.of_nat k - 1) * v < 2 * T /\ M_Examples.passes k body s = Ret s' tt /\
    (forall fuel, (k <= fuel)%nat -> exists nx new,
       for_ever fuel dt stop print body (s, TS 0 0 0 ls) = Ret (s', TS (uwrap (Z.of_nat k)) t nx (ls ++ new)) tt) /\
    exists c, num64 t = Fin c /\ T <= c /\ within k c (Z.of_nat k * v) (2 ^ 1074).
Proof. exact (loop_ends dt stop print v T body s ls). Qed.
Print Assumptions C77_ends.

(** With a step of 2^-55 the time 1 is never reached. *)
Theorem C77_endless_refuted : exists dt stop v T, num64 dt = Fin v /\ num64 stop = Fin T /\ 0 < v /\ 0 < T /\ T = 2 ^ 55 * v /\
  forall (S : Type) (body : M S unit) print s ls, (forall s, exists s', body s = Ret s' tt) ->
  forall fuel, for_ever fuel dt stop print body (s, TS 0 0 0 ls) = Undef.
Proof.
  exists (lit 1 (2 ^ 55)), (lit 1 1), (2 ^ 1019), (2 ^ 1074). split; [exact small_step|]. split; [reflexivity|]. split; [reflexivity|]. split; [reflexivity|]. split; [reflexivity|].
  intros S body print s ls H fuel. apply (loop_stuck (lit 1 (2 ^ 55)) (lit 1 1) print body (fun _ => True)) with (j := O); [intros; apply stuck_never| |exact I].
  intros s1 _. destruct (H s1) as (s' & E). eauto.
Qed.
Print Assumptions C77_endless_refuted.

Section Runs.
Context {V : Type}.
Import M_Examples.

(** ** Example_D1_heat *)

Theorem C77_heat_1D F chk N reps (xf : Z -> V) cosf exact lap adv t0 :
  2 <= N <= 2 ^ 25 -> 1 <= reps < UINT_MOD -> (forall t, (t < 3)%nat -> F t = false) ->
  exists k, first_reach 30 (62831852 * 62831852) (10 * (2 * (10000000 * (N - 1) * (10000000 * (N - 1))))) (2 ^ 1073) k /\
  forall fuel, (k <= fuel)%nat -> exists h w aw t,
    heat1_run chk fuel N reps xf cosf exact lap adv (start F, t0) = Ret (w, t) tt /\ after F h w aw /\ intact aw /\
    step t = uwrap (Z.of_nat k) /\ (exists c, num64 (flowtime t) = Fin c /\ 2 ^ 1073 <= c) /\
    (exists new, lines t = lines t0 ++ new /\ (List.length new <= 21 * Z.to_nat reps)%nat) /\
    forall i, 0 <= i < N ->
      cell w (u1 0 i) (Some (Nat.iter k (heat_step N lap adv) (fun i => cosf (xf i)) i)) /\
      cell w (u1 1 i) (Some (exact (xf i))).
Proof.
  intros HN Hr HF. destruct (passes1_exist N HN) as (k & A & B & C & c & Ec & _ & Lc). exists k. split; [exact A|]. intros fuel Hf.
  change (2 ^ 25) with 33554432 in HN.
  destruct (heat1_with F chk N reps k xf cosf exact lap adv t0 fuel ltac:(lia) Hr HF (proj1 A) B C Hf) as (h & w & aw & t & E & D & I & (T1 & T2 & T3) & G).
  exists h, w, aw, t. rewrite T2. split; [exact E|]. split; [exact D|]. split; [exact I|]. split; [exact T1|]. split; [exists c; auto|]. split; [exact T3|exact G].
Qed.

(** The numbers of the file: [N = 5001] points, [exec_time(2, ...)]. *)
Theorem C77_file_1D F chk reps (xf : Z -> V) cosf exact lap adv t0 k fuel :
  Z.of_nat k = 6332575 -> (k <= fuel)%nat -> 1 <= reps < UINT_MOD -> (forall t, (t < 3)%nat -> F t = false) ->
  exists h w aw t,
    heat1_run chk fuel 5001 reps xf cosf exact lap adv (start F, t0) = Ret (w, t) tt /\ after F h w aw /\ intact aw /\
    step_line t = ("step: 6332575" ++ NL)%string /\ time_line t = ("time: 0.5" ++ NL)%string /\
    (exists new, lines t = lines t0 ++ new /\ (List.length new <= 21 * Z.to_nat reps)%nat) /\
    forall i, 0 <= i < 5001 ->
      cell w (u1 0 i) (Some (Nat.iter k (heat_step 5001 lap adv) (fun i => cosf (xf i)) i)) /\
      cell w (u1 1 i) (Some (exact (xf i))).
Proof.
  intros Hk Hf Hr HF. destruct (count1 k Hk) as [B C].
  destruct (heat1_with F chk 5001 reps k xf cosf exact lap adv t0 fuel ltac:(lia) Hr HF ltac:(lia) B C Hf) as (h & w & aw & t & E & D & I & (T1 & T2 & T3) & G).
  exists h, w, aw, t. split; [exact E|]. split; [exact D|]. split; [exact I|].
  split; [unfold step_line; rewrite T1, Hk; reflexivity|]. split; [unfold time_line; rewrite (text1 k _ Hk T2); reflexivity|]. split; [exact T3|exact G].
Qed.

(** ** Example_D2_heat *)

Theorem C77_heat_2D F chk N reps (xf yf : Z -> V) ini exact neg lapx lapy adv t0 :
  1 <= N -> 2 * ((N + 3) * (2 * N + 3)) < UINT_MOD -> 1 <= reps < UINT_MOD -> (forall t, (t < 6)%nat -> F t = false) ->
  exists k T, num64 time_stop2 = Fin T /\ within 1 T 1 10 /\
  first_reach 30 (62831852 * 62831852) (10 * (4 * (10000000 * N * (10000000 * N)))) T k /\
  forall fuel, (k <= fuel)%nat -> exists h w aw t,
    heat2_run chk fuel N reps xf yf ini exact neg lapx lapy adv (start F, t0) = Ret (w, t) tt /\ after F h w aw /\ intact aw /\
    step t = uwrap (Z.of_nat k) /\ (exists c, num64 (flowtime t) = Fin c /\ T <= c) /\
    (exists new, lines t = lines t0 ++ new /\ (List.length new <= 21 * Z.to_nat reps)%nat) /\
    forall i j, 0 <= i < N + 1 -> 0 <= j < 2 * N + 1 ->
      cell w (u2 0 i j) (Some (Nat.iter k (heat_step2 (N + 1) (2 * N + 1) neg lapx lapy adv) (fun i j => ini (xf i) (yf j)) i j)) /\
      cell w (u2 1 i j) (Some (exact (xf i) (yf j))).
Proof.
  intros HN HM Hr HF. destruct (passes2_exist N) as (k & T & ET & WT & A & B & C & c & Ec & Lc); [change (2 ^ 25) with 33554432; nia|].
  exists k, T. split; [exact ET|]. split; [exact WT|]. split; [exact A|]. intros fuel Hf.
  destruct (heat2_with F chk N reps k xf yf ini exact neg lapx lapy adv t0 fuel HN HM Hr HF (proj1 A) B C Hf) as (h & w & aw & t & E & D & I & (T1 & T2 & T3) & G).
  exists h, w, aw, t. rewrite T2. split; [exact E|]. split; [exact D|]. split; [exact I|]. split; [exact T1|]. split; [exists c; auto|]. split; [exact T3|exact G].
Qed.

(** The numbers of the file: [N = 500], [exec_time(1, ...)]. *)
Theorem C77_file_2D F chk reps (xf yf : Z -> V) ini exact neg lapx lapy adv t0 k fuel :
  Z.of_nat k = 25331 -> (k <= fuel)%nat -> 1 <= reps < UINT_MOD -> (forall t, (t < 6)%nat -> F t = false) ->
  exists h w aw t,
    heat2_run chk fuel 500 reps xf yf ini exact neg lapx lapy adv (start F, t0) = Ret (w, t) tt /\ after F h w aw /\ intact aw /\
    step_line t = ("step: 25331" ++ NL)%string /\ time_line t = ("time: 0.100003" ++ NL)%string /\
    (exists new, lines t = lines t0 ++ new /\ (List.length new <= 21 * Z.to_nat reps)%nat) /\
    forall i j, 0 <= i < 501 -> 0 <= j < 1001 ->
      cell w (u2 0 i j) (Some (Nat.iter k (heat_step2 501 1001 neg lapx lapy adv) (fun i j => ini (xf i) (yf j)) i j)) /\
      cell w (u2 1 i j) (Some (exact (xf i) (yf j))).
Proof.
  intros Hk Hf Hr HF. destruct (count2 k Hk) as [B C].
  destruct (heat2_with F chk 500 reps k xf yf ini exact neg lapx lapy adv t0 fuel ltac:(lia) ltac:(lia) Hr HF ltac:(lia) B C Hf) as (h & w & aw & t & E & D & I & (T1 & T2 & T3) & G).
  exists h, w, aw, t. split; [exact E|]. split; [exact D|]. split; [exact I|].
  split; [unfold step_line; rewrite T1, Hk; reflexivity|]. split; [unfold time_line; rewrite (text2 k _ Hk T2); reflexivity|]. split; [exact T3|exact G].
Qed.

End Runs.

Print Assumptions C77_heat_1D.
Print Assumptions C77_file_1D.
Print Assumptions C77_heat_2D.
Print Assumptions C77_file_2D.

(** ** Cases that meet the hypotheses *)

(** A loop with the step 1/2 up to 1: two passes, a line after the first. *)
Example C77_ex_loop :
  for_ever 3 (lit 1 2) (lit 1 1) (lit 1 4) (fun n : Z => Ret (n + 10) tt) (0, TS 0 0 0 []) =
  Ret (20, TS 2 (lit 1 1) (lit 1 4) [(1, lit 1 2)]) tt.
Proof. reflexivity. Qed.

Example C77_ex_ends : num64 (lit 1 4) = Fin (2 ^ 1072) /\ num64 (lit 1 1) = Fin (2 ^ 1074) /\ 0 < 2 ^ 1072 /\ 0 < 2 ^ 1074 /\
  2 ^ 1074 <= 2 ^ 50 * 2 ^ 1072 /\ 2 ^ 1074 <= 2 ^ 90 * 2 ^ 1074 /\ 2 ^ 1072 <= 2 ^ 90 * 2 ^ 1074 /\
  forall k, exists s', M_Examples.passes k (fun n : Z => Ret (n + 10) tt) 0 = Ret s' tt.
Proof.
  split; [reflexivity|]. split; [reflexivity|]. repeat (split; [apply Z.ltb_lt || apply Z.leb_le; reflexivity|]).
  intros k. generalize 0. induction k as [|k IH]; intros n; [exists n; reflexivity|]. cbn [M_Examples.passes]. unfold bind. apply IH.
Qed.

Example C77_ex_file : exists k, Z.of_nat k = 6332575 /\ 1 <= 2 < UINT_MOD /\ forall t, (t < 3)%nat -> P_Access.nofail t = false.
Proof. exists (Z.to_nat 6332575). split; [apply Z2Nat.id; lia|]. split; [lia|]. reflexivity. Qed.
