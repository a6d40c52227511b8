(** C78: the heat examples in exact arithmetic: the values stay in the range of the initial values, and in one dimension the
    heat content is conserved.

    [heat1 chk N reps k xf cosf exact lap adv] is Example_D1_heat with [N] points and [k] passes of the time loop, [heat2]
    Example_D2_heat (M_Examples.v; the number of passes is the subject of C77).  [lapQ], [lapyQ], [advQ] are the right hand
    sides over the rational numbers.  [A] stands for [a_hh] ([a_hh_x]), [B] for [a_hh_y]; in the files [dt] is
    [0.1 / a_hh] and [0.1] divided by the larger of [a_hh_x], [a_hh_y]. *)

From Coq Require Import ZArith QArith List Bool Lia Lqa.
From Verif Require Import Base M_Flags M_Loop M_RS1 M_RS2 M_RS3 M_Heap M_PD1 M_PD2 M_PD3 M_World M_Client M_Examples
  Spec Spec_Loop Spec_Array Spec_Hist Spec_Reach Spec_Client Spec_HeatQ L_HeatQ.
From Verif Require P_Access P_Client.
Import ListNotations.
Open Scope Z_scope.

Theorem C78_range_1D F chk N reps k (xf : Z -> Q) cosf exact A dt m M :
  2 <= N <= 1073741824 -> 1 <= reps < UINT_MOD -> (forall t, (t < 3)%nat -> F t = false) ->
  (0 <= A * dt <= 1 # 2)%Q -> (forall i, 0 <= i < N -> (m <= cosf (xf i) <= M)%Q) ->
  exists h w aw, heat1 chk N reps k xf cosf exact (lapQ A) (advQ dt) (start F) = Ret w tt /\ after F h w aw /\ intact aw /\
    forall i, 0 <= i < N -> exists v, cell w (u1 0 i) (Some v) /\ (m <= v <= M)%Q.
Proof.
  intros HN Hr HF HR H. destruct (P_Client.C50_heat_1D F chk N reps k xf cosf exact (lapQ A) (advQ dt) HN Hr HF) as (h & w & aw & E & HA & HI & HC).
  exists h, w, aw. split; [exact E|]. split; [exact HA|]. split; [exact HI|]. intros i Hi. eexists. split; [exact (proj1 (HC i Hi))|].
  apply (iter_range N A dt m M k (fun i => cosf (xf i))); [lia|exact HR|exact H|exact Hi].
Qed.
Print Assumptions C78_range_1D.

Theorem C78_content_1D F chk N reps k (xf : Z -> Q) cosf exact A dt :
  2 <= N <= 1073741824 -> 1 <= reps < UINT_MOD -> (forall t, (t < 3)%nat -> F t = false) ->
  exists h w aw v, heat1 chk N reps k xf cosf exact (lapQ A) (advQ dt) (start F) = Ret w tt /\ after F h w aw /\ intact aw /\
    (forall i, 0 <= i < N -> cell w (u1 0 i) (Some (v i))) /\ (heat_content N v == heat_content N (fun i => cosf (xf i)))%Q.
Proof.
  intros HN Hr HF. destruct (P_Client.C50_heat_1D F chk N reps k xf cosf exact (lapQ A) (advQ dt) HN Hr HF) as (h & w & aw & E & HA & HI & HC).
  exists h, w, aw, (Nat.iter k (heat_step N (lapQ A) (advQ dt)) (fun i => cosf (xf i))). split; [exact E|]. split; [exact HA|]. split; [exact HI|].
  split; [intros i Hi; exact (proj1 (HC i Hi))|]. apply iter_content. lia.
Qed.
Print Assumptions C78_content_1D.

Theorem C78_range_2D F chk Nx Ny reps k (xf yf : Z -> Q) ini exact A B dt M :
  2 <= Nx -> 2 <= Ny -> 2 * ((Nx + 2) * (Ny + 2)) < UINT_MOD -> 1 <= reps < UINT_MOD -> (forall t, (t < 6)%nat -> F t = false) ->
  (0 <= A * dt)%Q -> (0 <= B * dt)%Q -> (A * dt + B * dt <= 1 # 2)%Q ->
  (forall i j, 0 <= i < Nx -> 0 <= j < Ny -> (- M <= ini (xf i) (yf j) <= M)%Q) ->
  exists h w aw, heat2 chk Nx Ny reps k xf yf ini exact Qopp (lapQ A) (lapyQ B) (advQ dt) (start F) = Ret w tt /\ after F h w aw /\ intact aw /\
    forall i j, 0 <= i < Nx -> 0 <= j < Ny -> exists v, cell w (u2 0 i j) (Some v) /\ (- M <= v <= M)%Q.
Proof.
  intros HX HY HM Hr HF RA RB R H.
  destruct (P_Client.C51_heat_2D F chk Nx Ny reps k xf yf ini exact Qopp (lapQ A) (lapyQ B) (advQ dt) HX HY HM Hr HF) as (h & w & aw & E & HA & HI & HC).
  exists h, w, aw. split; [exact E|]. split; [exact HA|]. split; [exact HI|]. intros i j Hi Hj. eexists. split; [exact (proj1 (HC i j Hi Hj))|].
  apply (iter2_range Nx Ny A B dt M k (fun i j => ini (xf i) (yf j))); assumption.
Qed.
Print Assumptions C78_range_2D.

(** With a larger step the range is left: three points, 0 1 0, [A * dt = 1]. *)
Theorem C78_unstable_refuted : exists (N : Z) (f : Z -> Q) (A dt : Q), 2 <= N /\ (A * dt == 1)%Q /\
  (forall i, 0 <= i < N -> (0 <= f i <= 1)%Q) /\ exists i, 0 <= i < N /\ (heat_step N (lapQ A) (advQ dt) f i < 0)%Q.
Proof.
  exists 3, (fun i => if i =? 1 then 1%Q else 0%Q), 4%Q, (1 # 4)%Q. split; [lia|]. split; [reflexivity|]. split.
  - intros i _. destruct (i =? 1); split; lra.
  - exists 1. split; [lia|]. reflexivity.
Qed.
Print Assumptions C78_unstable_refuted.

(** ** Cases that meet the hypotheses *)

Example C78_ex_step A : (0 < A)%Q -> (0 <= A * ((1 # 10) / A) <= 1 # 2)%Q.
Proof. intros H. assert (E : (A * ((1 # 10) / A) == 1 # 10)%Q) by (field; lra). rewrite E. split; lra. Qed.

Example C78_ex_step2 : (let dt := (1 # 10) / 4 in 0 <= 4 * dt /\ 0 <= 1 * dt /\ 4 * dt + 1 * dt <= 1 # 2)%Q.
Proof. repeat split; discriminate. Qed.

(** Four points, the values 4 0 0 8, one pass: the first becomes 16/5, the content stays 6. *)
Example C78_ex_content :
  let f i := if i =? 0 then 4%Q else if i =? 3 then 8%Q else 0%Q in
  (heat_content 4 f == 6)%Q /\ (heat_content 4 (heat_step 4 (lapQ 2) (advQ (1 # 20)) f) == 6)%Q /\
  (heat_step 4 (lapQ 2) (advQ (1 # 20)) f 0 == 16 # 5)%Q.
Proof. repeat split; reflexivity. Qed.

Example C78_ex_data : forall i, 0 <= i < 5 -> (0 <= (fun x => x) (inject_Z i) <= 4)%Q.
Proof. intros i Hi. split; unfold Qle; cbn; lia. Qed.
