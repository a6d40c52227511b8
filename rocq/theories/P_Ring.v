(** C65: a ring of arrays with their ghost points filled by copy_from. *)

From Coq Require Import ZArith List Bool Lia.
From Verif Require Import Base M_Flags M_Loop M_RS1 M_Heap M_PD1 M_World M_Client M_Examples M_Ring
  Spec Spec_Array Spec_Hist Spec_Reach Spec_Client Spec_Ring L_Ring.
Import ListNotations.
Open Scope Z_scope.

(** The field after [k] passes on a ring of arrays is the field on the circle. *)
Theorem C65_ring : forall V fails chk g ns (ini : Z -> V) stc ds k,
  1 <= g -> Forall (fun n => g <= n /\ n + 2 * g <= 1073741824) ns -> Forall (fun d => - g <= d <= g) ds ->
  (forall t, (t < length ns)%nat -> fails t = false) ->
  exists h w aw, ring chk g ns ini stc ds k (start fails) = Ret w tt /\ after fails h w aw /\ intact aw /\
    forall j n i, nth_error ns j = Some n -> 0 <= i < n ->
      cell w (Elt j 0 [i] [FC]) (Some (circle (total ns) stc ds ini k (first_point ns j + i))).
Proof. intros V fails chk g ns ini stc ds k H1 H2 H3 H4. exact (ring_final fails chk g ns H1 H2 stc ds H3 ini k H4). Qed.
Print Assumptions C65_ring.

(** So the way the points are cut into arrays, and the number of ghost points, do not show. *)
Theorem C65_same : forall V fails chk chk' g g' ns ns' (ini : Z -> V) stc ds k w w',
  1 <= g -> Forall (fun n => g <= n /\ n + 2 * g <= 1073741824) ns ->
  1 <= g' -> Forall (fun n => g' <= n /\ n + 2 * g' <= 1073741824) ns' ->
  Forall (fun d => - g <= d <= g /\ - g' <= d <= g') ds -> (forall t, fails t = false) -> total ns = total ns' ->
  ring chk g ns ini stc ds k (start fails) = Ret w tt -> ring chk' g' ns' ini stc ds k (start fails) = Ret w' tt ->
  forall j n i j' n' i', nth_error ns j = Some n -> 0 <= i < n -> nth_error ns' j' = Some n' -> 0 <= i' < n' ->
    first_point ns j + i = first_point ns' j' + i' ->
    exists v, cell w (Elt j 0 [i] [FC]) (Some v) /\ cell w' (Elt j' 0 [i'] [FC]) (Some v).
Proof.
  intros V fails chk chk' g g' ns ns' ini stc ds k w w' H1 H2 H3 H4 H5 H6 H7 E E' j n i j' n' i' Hj Hi Hj' Hi' Hp.
  destruct (C65_ring V fails chk g ns ini stc ds k H1 H2) as (h & w1 & aw & E1 & _ & _ & C1).
  { eapply Forall_impl; [|exact H5]. intros d Hd. apply Hd. }
  { auto. }
  destruct (C65_ring V fails chk' g' ns' ini stc ds k H3 H4) as (h' & w1' & aw' & E1' & _ & _ & C1').
  { eapply Forall_impl; [|exact H5]. intros d Hd. apply Hd. }
  { auto. }
  rewrite E in E1. injection E1 as <-. rewrite E' in E1'. injection E1' as <-.
  eexists. split; [exact (C1 _ _ _ Hj Hi)|]. rewrite Hp, H7. exact (C1' _ _ _ Hj' Hi').
Qed.
Print Assumptions C65_same.

(** With an array narrower than its neighbour's ghost zone the program reads an element that nobody has set; without
    ghost points the copies are refused. *)
Theorem C65_narrow_refuted : exists g ns ds, 1 <= g /\ Forall (fun n => 1 <= n) ns /\ Forall (fun d => - g <= d <= g) ds /\
  ring true g ns (fun i => i) (fun _ => 0) ds 1 (start (fun _ => false)) = Undef /\
  exists w, ring true 0 ns (fun i => i) (fun _ => 0) [0] 1 (start (fun _ => false)) = Thr w EOverlapNotFound.
Proof.
  exists 2, [1; 3], [2]. split; [lia|]. split; [repeat constructor; lia|]. split; [repeat constructor; lia|].
  split; [vm_compute; reflexivity|]. eexists. vm_compute. reflexivity.
Qed.
Print Assumptions C65_narrow_refuted.

(** Three arrays of 2, 3 and 2 points, two ghost points, weights 1, 2, 3 at distance -2, 0, 1; two passes: what the
    program leaves in the arrays, and the field on the circle. *)
Definition ex_weights (vs : list Z) : Z := fold_right Z.add 0 (map (fun '(a, b) => a * b) (combine [1; 2; 3] vs)).
Definition ex_shown (m : out (world Z) unit) (a : nat) (i : Z) : option Z :=
  match m with
  | Ret w _ => match step true w (Read a 0 [i] [FC]) with Some (_, RVal v) => v | _ => None end
  | _ => None
  end.
Example C65_ex : 1 <= 2 /\ Forall (fun n => 2 <= n /\ n + 2 * 2 <= 1073741824) [2; 3; 2] /\ Forall (fun d => - 2 <= d <= 2) [-2; 0; 1] /\
  (let m := ring true 2 [2; 3; 2] (fun i => i * i) ex_weights [-2; 0; 1] 2 (start (fun _ => false)) in
   map (ex_shown m 0) [0; 1] ++ map (ex_shown m 1) [0; 1; 2] ++ map (ex_shown m 2) [0; 1])
    = map Some [373; 293; 299; 517; 758; 665; 371] /\
  map (circle 7 ex_weights [-2; 0; 1] (fun i => i * i) 2) [0; 1; 2; 3; 4; 5; 6] = [373; 293; 299; 517; 758; 665; 371].
Proof.
  split; [lia|]. split; [repeat constructor; lia|]. split; [repeat constructor; lia|]. split; vm_compute; reflexivity.
Qed.
