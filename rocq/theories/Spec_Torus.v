(** A field on a torus, and how it is laid on a grid of arrays. *)

From Coq Require Import ZArith List.
From Verif Require Import Spec_Ring.
Import ListNotations.
Open Scope Z_scope.

(** A grid: for every direction the number of ghost points and the widths of the arrays along it.
    [at_tile gr t ws]: the array at place [t] has the widths [ws]. *)
Fixpoint at_tile (gr : list (Z * list Z)) (t : list nat) (ws : list Z) : Prop :=
  match gr, t, ws with
  | [], [], [] => True
  | (_, l) :: gr', x :: t', w :: ws' => nth_error l x = Some w /\ at_tile gr' t' ws'
  | _, _, _ => False
  end.

(** The number of the array at place [t]: the last direction runs fastest. *)
Definition arrays (gr : list (Z * list Z)) : nat := fold_right (fun d n => (length (snd d) * n)%nat) 1%nat gr.
Fixpoint array_no (gr : list (Z * list Z)) (t : list nat) : nat :=
  match gr, t with
  | _ :: gr', x :: t' => (x * arrays gr' + array_no gr' t')%nat
  | _, _ => O
  end.

(** The points of the torus that belong to the array at place [t]: [point_of gr t q] for [q] inside. *)
Fixpoint point_of (gr : list (Z * list Z)) (t : list nat) (q : list Z) : list Z :=
  match gr, t, q with
  | (_, l) :: gr', x :: t', i :: q' => first_point l x + i :: point_of gr' t' q'
  | _, _, _ => []
  end.
Definition inside (ws q : list Z) : Prop := Forall2 (fun w i => 0 <= i < w) ws q.

Definition extents (gr : list (Z * list Z)) : list Z := map (fun d => total (snd d)) gr.

(** The point at distance [d] from [p], round the torus. *)
Fixpoint round (ls p d : list Z) : list Z :=
  match ls, p, d with
  | n :: ls', x :: p', y :: d' => (x + y) mod n :: round ls' p' d'
  | _, _, _ => []
  end.

Definition torus_step {V} (ls : list Z) (stc : list V -> V) (ds : list (list Z)) (G : list Z -> V) (p : list Z) : V :=
  stc (map (fun d => G (round ls p d)) ds).

(** The field after [k] passes. *)
Definition torus_field {V} (ls : list Z) (stc : list V -> V) (ds : list (list Z)) (ini : list Z -> V) (k : nat) : list Z -> V :=
  Nat.iter k (torus_step ls stc ds) ini.

(** The number of points of an array with its ghost points. *)
Fixpoint points (gr : list (Z * list Z)) (ws : list Z) : Z :=
  match gr, ws with
  | (g, _) :: gr', w :: ws' => (w + 2 * g) * points gr' ws'
  | _, _ => 1
  end.

(** A grid the library can hold: up to three directions, at least one ghost point, no array narrower than a ghost
    zone, and the sizes representable in the C++ types. *)
Definition grid_ok (gr : list (Z * list Z)) : Prop :=
  (1 <= length gr <= 3)%nat /\
  Forall (fun d => 1 <= fst d /\ Forall (fun w => fst d <= w /\ w + 2 * fst d <= 1073741824) (snd d)) gr /\
  forall t ws, at_tile gr t ws -> 2 * points gr ws < 4294967296.

(** A point at distance at most the ghost width in every direction. *)
Definition in_reach (gr : list (Z * list Z)) (d : list Z) : Prop := Forall2 (fun e x => - fst e <= x <= fst e) gr d.
