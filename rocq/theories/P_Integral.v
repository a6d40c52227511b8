(** C76: what Example_D1_integration computes and prints for the integral of x from 0 to 1.

    [integral chk N reps root] is the program with [N] points and [reps] repetitions (10000001 and 100 in the file);
    its result is the list of the numbers written, two for each repetition: the integral of x, and that of [root] of x.
    [within n v p q]: the number [v] is [p / q] up to [n] factors between 1 - 2^-53 and 1 + 2^-53 (Spec_FMul.v). *)

From Coq Require Import ZArith Ascii String List Bool Lia.
From Verif Require Import Base M_Bytes M_Scan M_Flags M_Loop M_Reduce M_FSum M_FMul M_Print Spec_Tec Spec Spec_Loop Spec_FMul.
From Verif Require Import M_Heap M_World M_Client M_Integral Spec_Array Spec_Hist Spec_Reach Spec_Client L_Base L_Integral.
From Verif Require P_Access P_Client.
Import ListNotations.
Open Scope list_scope.
Open Scope Z_scope.

(** The first number is N / (2 (N - 1)) up to N + 4 roundings, in each repetition. *)
Theorem C76_value F chk N reps root : 2 <= N < INT_MAX -> 0 <= reps < UINT_MOD -> (forall t, (t < 2)%nat -> F t = false) ->
  exists w v v' c, integral chk N reps root (start F, []) = Ret (w, concat (repeat [v; v'] (Z.to_nat reps))) tt /\
    num64 v = Fin c /\ within (Z.to_nat N + 4) c N (2 * (N - 1)).
Proof.
  intros HN HR HF. assert (H31 : INT_MAX = 2 ^ 31 - 1) by reflexivity.
  destruct (P_Client.C52_integration F chk N reps (abscissa N) root 0 (fun x xx => dadd xx x) (mean N) ltac:(lia) HR HF) as (h & w & aw & E & _).
  destruct (integral_value N ltac:(lia)) as (c & Ec & _ & W). eexists w, _, _, c. split; [exact E|]. split; [exact Ec|exact W].
Qed.
Print Assumptions C76_value.

(** The exact integral is 1/2.  All [N] points count with the weight 1 / (N - 1), so the result is too large: up to 2^26
    points the rounding errors never make up for that. *)
Theorem C76_above F chk N reps root : 2 <= N <= 2 ^ 26 -> 0 <= reps < UINT_MOD -> (forall t, (t < 2)%nat -> F t = false) ->
  exists w v v' c, integral chk N reps root (start F, []) = Ret (w, concat (repeat [v; v'] (Z.to_nat reps))) tt /\
    num64 v = Fin c /\ 2 ^ 1074 < 2 * c.
Proof.
  intros HN HR HF. assert (H31 : INT_MAX = 2 ^ 31 - 1) by reflexivity.
  destruct (C76_value F chk N reps root ltac:(lia) HR HF) as (w & v & v' & c & E & Ec & W). exists w, v, v', c.
  split; [exact E|]. split; [exact Ec|]. exact (above_half N c HN W).
Qed.
Print Assumptions C76_above.

(** From 2000001 points on, and so for those in the file, the line printed is right to all its digits. *)
Theorem C76_printed F chk N reps root : 2000001 <= N < INT_MAX -> 0 <= reps < UINT_MOD -> (forall t, (t < 2)%nat -> F t = false) ->
  exists w l line, integral chk N reps root (start F, []) = Ret (w, l) tt /\
    map answer_line l = concat (repeat [("ans = 0.5" ++ NL)%string; line] (Z.to_nat reps)).
Proof.
  intros HN HR HF. assert (H31 : INT_MAX = 2 ^ 31 - 1) by reflexivity.
  destruct (P_Client.C52_integration F chk N reps (abscissa N) root 0 (fun x xx => dadd xx x) (mean N) ltac:(lia) HR HF) as (h & w & aw & E & _).
  destruct (integral_value N ltac:(lia)) as (c & Ec & R & W).
  eexists w, _, _. split; [exact E|]. rewrite concat_map. f_equal.
  assert (MR : forall (A B : Type) (f : A -> B) x n, map f (repeat x n) = repeat (f x) n).
  { intros A B f x n. induction n as [|n IH]; cbn [repeat map]; [reflexivity|]. now rewrite IH. }
  rewrite MR. cbn [map]. unfold answer_line at 1. rewrite (half_text _ c R Ec (near_half N c ltac:(lia) W)). reflexivity.
Qed.
Print Assumptions C76_printed.

(** The program in the file. *)
Example C76_ex root : exists w l line, integral true 10000001 100 root (start P_Access.nofail, []) = Ret (w, l) tt /\
  map answer_line l = concat (repeat [("ans = 0.5" ++ NL)%string; line] 100).
Proof. apply (C76_printed P_Access.nofail true 10000001 100 root); [split; [lia|reflexivity]|split; [lia|reflexivity]|reflexivity]. Qed.
