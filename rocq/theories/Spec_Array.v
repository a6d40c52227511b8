(** Specification vocabulary for arrays: storage slots, row-major addresses,
    the order of the checks of an element access. *)

From Coq Require Import ZArith List Bool.
From Verif Require Import Base M_Flags Spec Spec_Loop.
Import ListNotations.
Open Scope Z_scope.

(** Number of points of a box whose faces are ordered. *)
Definition vol (B : box) : Z := zprod (map (fun f => snd f - fst f) B).

(** Row-major (last index fastest) position of a point, counted from the low
    corner; [acc] is the position reached by the coordinates further left. *)
Fixpoint lin (B : box) (acc : Z) (q : list Z) : Z :=
  match B, q with
  | f :: B', x :: q' => lin B' (acc * (snd f - fst f) + (x - fst f)) q'
  | _, _ => acc
  end.

(** The storage slots of an array. *)
Definition slot_box (gs : list dim_shape) (ls : list loc) : box :=
  map (fun '(g, l) => slots g l) (combine gs ls).

(** Shapes the classes can represent: numbers of points within [int]. *)
Definition shape_ok (g : dim_shape) : Prop :=
  let '(n, i, p) := g in 0 <= n /\ 0 <= i /\ 0 <= p /\ n + i + p < INT_MAX.
