(** C66: a grid of arrays in one, two or three dimensions with their ghost points, corners included, filled by copy_from. *)

From Coq Require Import ZArith List Bool Lia.
From Verif Require Import Base M_Flags M_Loop M_RS1 M_Heap M_PD1 M_World M_Client M_Examples M_Ring M_Torus
  Spec Spec_Array Spec_Hist Spec_Reach Spec_Client Spec_Ring Spec_Torus L_Torus.
Import ListNotations.
Open Scope Z_scope.

(** The field after [k] passes on a grid of arrays is the field on the torus. *)
Theorem C66_torus : forall V fails chk gr (ini : list Z -> V) stc ds k,
  grid_ok gr -> Forall (in_reach gr) ds -> (forall u, (u < length gr * arrays gr)%nat -> fails u = false) ->
  exists h w aw, torus chk gr ini stc ds k (start fails) = Ret w tt /\ after fails h w aw /\ intact aw /\
    forall t ws q, at_tile gr t ws -> inside ws q ->
      cell w (Elt (array_no gr t) 0 q (map (fun _ => FC) q)) (Some (torus_field (extents gr) stc ds ini k (point_of gr t q))).
Proof.
  intros V fails chk gr ini stc ds k (H1 & H2 & H3) H4 H5. apply (torus_final fails chk gr H2 H1 stc ds H4); [|exact H5].
  apply (cells_bound gr H3).
Qed.
Print Assumptions C66_torus.

(** So the way the torus is cut into arrays, and the numbers of ghost points, do not show. *)
Theorem C66_same : forall V fails chk chk' gr gr' (ini : list Z -> V) stc ds k w w',
  grid_ok gr -> grid_ok gr' -> Forall (in_reach gr) ds -> Forall (in_reach gr') ds -> (forall u, fails u = false) -> extents gr = extents gr' ->
  torus chk gr ini stc ds k (start fails) = Ret w tt -> torus chk' gr' ini stc ds k (start fails) = Ret w' tt ->
  forall t ws q t' ws' q', at_tile gr t ws -> inside ws q -> at_tile gr' t' ws' -> inside ws' q' -> point_of gr t q = point_of gr' t' q' ->
    exists v, cell w (Elt (array_no gr t) 0 q (map (fun _ => FC) q)) (Some v) /\
              cell w' (Elt (array_no gr' t') 0 q' (map (fun _ => FC) q')) (Some v).
Proof.
  intros V fails chk chk' gr gr' ini stc ds k w w' H1 H2 H3 H4 H5 H6 E E' t ws q t' ws' q' Ht Hq Ht' Hq' Hp.
  destruct (C66_torus V fails chk gr ini stc ds k H1 H3) as (h & w1 & aw & E1 & _ & _ & C1); [auto|].
  destruct (C66_torus V fails chk' gr' ini stc ds k H2 H4) as (h' & w1' & aw' & E1' & _ & _ & C1'); [auto|].
  rewrite E in E1. injection E1 as <-. rewrite E' in E1'. injection E1' as <-.
  eexists. split; [exact (C1 _ _ _ Ht Hq)|]. rewrite Hp, H6. exact (C1' _ _ _ Ht' Hq').
Qed.
Print Assumptions C66_same.

(** Every point of the torus is in some array. *)
Theorem C66_cover : forall gr p, Forall (fun d => Forall (fun w => 0 <= w) (snd d)) gr -> inside (extents gr) p ->
  exists t ws q, at_tile gr t ws /\ inside ws q /\ point_of gr t q = p.
Proof. exact torus_cover. Qed.
Print Assumptions C66_cover.

(** With an array narrower than the ghost zone of its neighbour the program reads an element nobody has set. *)
Theorem C66_narrow_refuted : exists gr ds, (1 <= length gr <= 3)%nat /\ Forall (fun d => 1 <= fst d) gr /\ Forall (in_reach gr) ds /\
  torus true gr (fun _ => 0) (fun _ => 0) ds 1 (start (fun _ => false)) = Undef.
Proof.
  exists [(1, [2]); (2, [1; 3])], [[1; 2]]. split; [cbn; lia|]. split; [repeat constructor; cbn; lia|]. split; [repeat constructor; cbn; lia|].
  vm_compute; reflexivity.
Qed.
Print Assumptions C66_narrow_refuted.

(** A torus of 3 by 4 points cut into 2 by 2 arrays, a nine-point stencil with corners; one pass: what the program leaves in
    the arrays, and the field on the torus. *)
Definition ex_sum (vs : list Z) : Z := fold_right (fun v s => v + 2 * s) 0 vs.
Definition ex_grid : list (Z * list Z) := [(1, [2; 1]); (1, [1; 3])].
Definition ex_ds : list (list Z) := [[-1; -1]; [-1; 1]; [0; 0]; [1; -1]; [1; 1]].
Definition ex_shown2 (m : out (world Z) unit) (a : nat) (q : list Z) : option Z :=
  match m with
  | Ret w _ => match step true w (Read a 0 q (map (fun _ => FC) q)) with Some (_, RVal v) => v | _ => None end
  | _ => None
  end.
Example C66_ex : grid_ok ex_grid /\ Forall (in_reach ex_grid) ex_ds /\
  (let m := torus true ex_grid (fun p => nth 0 p 0 + 10 * nth 1 p 0) ex_sum ex_ds 1 (start (fun _ => false)) in
   map (fun '(a, q) => ex_shown2 m a q) [(0%nat, [0; 0]); (0%nat, [1; 0]); (1%nat, [0; 1]); (3%nat, [0; 2])])
    = map (fun p => Some (torus_field [3; 4] ex_sum ex_ds (fun p => nth 0 p 0 + 10 * nth 1 p 0) 1 p)) [[0; 0]; [1; 0]; [0; 2]; [2; 3]].
Proof.
  split; [|split; [repeat constructor; cbn; lia|vm_compute; reflexivity]].
  split; [cbn; lia|]. split; [repeat constructor; cbn; lia|].
  intros [|x [|y [|? ?]]] [|a [|b [|? ?]]] H; cbn in H; try tauto. destruct H as (Ha & Hb & _).
  assert (a <= 2) by (destruct x as [|[|[|?]]]; cbn in Ha; try discriminate Ha; injection Ha as <-; lia).
  assert (b <= 3) by (destruct y as [|[|[|?]]]; cbn in Hb; try discriminate Hb; injection Hb as <-; lia).
  assert (0 <= a) by (destruct x as [|[|[|?]]]; cbn in Ha; try discriminate Ha; injection Ha as <-; lia).
  cbn [ex_grid points]. nia.
Qed.
