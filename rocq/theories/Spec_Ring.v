(** A field on a circle of points, and how it is laid on a ring of arrays. *)

From Coq Require Import ZArith List.
Import ListNotations.
Open Scope Z_scope.

Definition total (ns : list Z) : Z := fold_right Z.add 0 ns.

(** The number, on the circle, of the first point of array [j]. *)
Definition first_point (ns : list Z) (j : nat) : Z := total (firstn j ns).

(** One pass on a circle of [L] points: the new value at [i] comes from the values at the points [i + d]. *)
Definition circle_step {V} (L : Z) (stc : list V -> V) (ds : list Z) (G : Z -> V) (i : Z) : V :=
  stc (map (fun d => G ((i + d) mod L)) ds).

(** The field after [k] passes. *)
Definition circle {V} (L : Z) (stc : list V -> V) (ds : list Z) (ini : Z -> V) (k : nat) : Z -> V :=
  Nat.iter k (circle_step L stc ds) ini.
