(** Specification vocabulary for loops: the points of a box in lexicographic
    order, running a body over a list, folding a reducer over a list. *)

From Coq Require Import ZArith List Bool.
From Verif Require Import Base M_Flags M_RS1 M_RS2 M_RS3 Spec.
Import ListNotations.
Open Scope Z_scope.

(** b, b+1, ..., e-1. *)
Definition zrange (b e : Z) : list Z :=
  map (fun k => b + Z.of_nat k) (seq 0 (Z.to_nat (e - b))).

(** The points of a box, first coordinate outermost. *)
Fixpoint points (B : box) : list (list Z) :=
  match B with
  | [] => [[]]
  | f :: B' => flat_map (fun x => map (cons x) (points B')) (zrange (fst f) (snd f))
  end.

(** Lexicographic order of index points. *)
Fixpoint lex_lt (p q : list Z) : Prop :=
  match p, q with
  | x :: p', y :: q' => x < y \/ (x = y /\ lex_lt p' q')
  | _, _ => False
  end.

(** Call the body on every element of the list, in order; the first call that
    throws (or is undefined) ends the run. *)
Fixpoint run {S A} (l : list A) (body : A -> M S unit) : M S unit :=
  match l with
  | [] => ret tt
  | x :: l' => body x ;;; run l' body
  end.

(** Evaluate [fn] on every element, in order, combining with [reduce]; at the
    end combine the accumulated value with [last]. *)
Fixpoint reduce_run {S T A} (reduce : T -> T -> res T) (l : list A) (fn : A -> M S T)
         (acc last : T) : M S T :=
  match l with
  | [] => lift (reduce acc last)
  | x :: l' =>
      do* v := fn x in
      do* acc' := lift (reduce v acc) in
      reduce_run reduce l' fn acc' last
  end.

(** Call a function of one, two, three, four coordinates on an index point. *)
Definition call1 {A} (fn : Z -> A) (q : list Z) : A := fn (nth 0 q 0).
Definition call2 {A} (fn : Z -> Z -> A) (q : list Z) : A := fn (nth 0 q 0) (nth 1 q 0).
Definition call3 {A} (fn : Z -> Z -> Z -> A) (q : list Z) : A :=
  fn (nth 0 q 0) (nth 1 q 0) (nth 2 q 0).
Definition call4 {A} (fn : Z -> Z -> Z -> Z -> A) (q : list Z) : A :=
  fn (nth 0 q 0) (nth 1 q 0) (nth 2 q 0) (nth 3 q 0).

(** No dimension is inverted and the faces can be written as [int]. *)
Definition box_ordered (B : box) : Prop :=
  Forall (fun f => in_int (fst f) /\ in_int (snd f) /\ fst f <= snd f) B.

(** The face pair of dimension [d]. *)
Definition dim_face (B : box) (d : Z) : Z * Z := nth (Z.to_nat d) B (0, 0).

(** Some dimension is inverted, and all dimensions outside of it are not empty. *)
Inductive inverted : box -> Prop :=
| inverted_here : forall f B, snd f < fst f -> inverted (f :: B)
| inverted_inside : forall f B, fst f < snd f -> inverted B -> inverted (f :: B).

Definition faces_int (B : box) : Prop := Forall (fun f => in_int (fst f) /\ in_int (snd f)) B.

(** Sum and product of a list. *)
Definition zsum (l : list Z) : Z := fold_right Z.add 0 l.
Definition zprod (l : list Z) : Z := fold_right Z.mul 1 l.
