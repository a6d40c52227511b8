(** Specification vocabulary.  Nothing here refers to how the code computes:
    boxes are given by their faces, shapes by three numbers per dimension. *)

From Coq Require Import ZArith List Bool.
From Verif Require Import Base M_Flags M_RS1 M_RS2 M_RS3.
Import ListNotations.
Open Scope Z_scope.

(** ** Boxes of index points *)

(** One (low, high) pair per dimension, the high face is excluded. *)
Definition box := list (Z * Z).

Definition in_box (B : box) (q : list Z) : Prop :=
  Forall2 (fun f x => fst f <= x < snd f) B q.

Definition box_nonempty (B : box) : Prop := Forall (fun f => fst f < snd f) B.

(** The faces and the extents can be written as [int]. *)
Definition box_fits (B : box) : Prop :=
  Forall (fun f => in_int (fst f) /\ in_int (snd f) /\ in_int (snd f - fst f)) B.

(** The boxes the three [RangeT] classes stand for. *)
Definition faces1 (r : rangeT1) : box := [(r1_begin r, r1_begin r + r1_size r)].
Definition faces2 (r : rangeT2) : box :=
  [(fst (r2_begin r), fst (r2_begin r) + fst (r2_size r));
   (snd (r2_begin r), snd (r2_begin r) + snd (r2_size r))].
Definition faces3 (r : rangeT3) : box :=
  [(c0 (r3_begin r), c0 (r3_begin r) + c0 (r3_size r));
   (c1 (r3_begin r), c1 (r3_begin r) + c1 (r3_size r));
   (c2 (r3_begin r), c2 (r3_begin r) + c2 (r3_size r))].

(** Moving faces. *)
Definition shift_box (v : list Z) (B : box) : box :=
  map (fun '(f, x) => (fst f + x, snd f + x)) (combine B v).
Definition raise_low (v : list Z) (B : box) : box :=
  map (fun '(f, x) => (fst f + x, snd f)) (combine B v).
Definition lower_high (v : list Z) (B : box) : box :=
  map (fun '(f, x) => (fst f, snd f - x)) (combine B v).
Definition vsub (q v : list Z) : list Z := map (fun '(a, b) => a - b) (combine q v).

(** ** Shapes *)

(** Points in front, interior points, points behind, in one dimension. *)
Definition dim_shape := (Z * Z * Z)%type.

(** The numbers of points and their sum can be written as [int]. *)
Definition dim_fits (g : dim_shape) : Prop :=
  let '(n, i, p) := g in 0 <= n /\ 0 <= i /\ 0 <= p /\ n + i + p <= INT_MAX.

(** Low and high face of a region. *)
Definition region (g : dim_shape) (t : ra) : Z * Z :=
  let '(n, i, p) := g in
  match t with
  | RN => (- n, 0)
  | RIN => (0, i)
  | RP => (i, i + p)
  | RALL => (- n, i + p)
  end.

(** The three regions that make up [RALL]. *)
Definition part (t : ra) : Prop := t = RN \/ t = RIN \/ t = RP.

Definition shape1 (s : sizeT1) : list dim_shape := [(s1_n s, s1_in s, s1_p s)].
Definition shape2 (s : sizeT2) : list dim_shape :=
  [(fst (s2_n s), fst (s2_in s), fst (s2_p s)); (snd (s2_n s), snd (s2_in s), snd (s2_p s))].
Definition shape3 (s : sizeT3) : list dim_shape :=
  [(c0 (s3_n s), c0 (s3_in s), c0 (s3_p s)); (c1 (s3_n s), c1 (s3_in s), c1 (s3_p s));
   (c2 (s3_n s), c2 (s3_in s), c2 (s3_p s))].

(** The boundary point of a region named by a boundary flag: its first point
    or its last point. *)
Definition edge (f : Z * Z) (fl : bflag) : Z :=
  match fl with BN => fst f | BP => snd f - 1 end.

(** Storage slots: the points of an array in a dimension, plus one more at the
    high end when the quantity lives at half points. *)
Definition slots (g : dim_shape) (l : loc) : Z * Z :=
  let '(n, i, p) := g in (- n, i + p + loc_val l).

Definition slot_count (g : dim_shape) (l : loc) : Z :=
  let '(n, i, p) := g in n + i + p + loc_val l.

(** ** Range errors *)

(** The faces can be moved by one without leaving [int]: the arithmetic of the
    error message and of the half location. *)
Definition margin (f : Z * Z) : Prop := in_int (fst f - 1) /\ in_int (snd f - 1) /\ in_int (snd f + 1).

(** The error that names the dimension, the index and the legal range
    (PointData_1D.hpp:95-103 and the 2D and 3D twins). *)
Definition range_error (l : loc) (d ii off : Z) (f : Z * Z) : exn :=
  match l with
  | center => ERangeC d ii (fst f) (snd f - 1)
  | half => ERangeH d ii off (fst f) (snd f - 1) (snd f)
  end.

(** ** Reflection and translation of indices *)

(** The ghost points of the side named by a boundary flag. *)
Definition ghost_of (fl : bflag) : ra := match fl with BN => RN | BP => RP end.
Definition ghost_width (g : dim_shape) (fl : bflag) : Z :=
  let '(n, _, p) := g in match fl with BN => n | BP => p end.

(** [m fl] is the reflection in the boundary point of the interior named by [fl]. *)
Definition reflects (g : dim_shape) (m : bflag -> Z -> res Z) : Prop :=
  forall fl,
  let b := edge (region g RIN) fl in
  let ghosts := region g (ghost_of fl) in
  let width := ghost_width g fl in
  let interior := snd (region g RIN) in
  m fl b = Ok b /\
  (forall x y, in_int x -> m fl x = Ok y -> m fl y = Ok x) /\
  (forall x y x' y', m fl x = Ok x' -> m fl y = Ok y' -> x < y -> y' < x') /\
  (width < interior ->
   forall x, fst ghosts <= x < snd ghosts ->
   exists y, m fl x = Ok y /\ 0 <= y < interior /\ y <> b) /\
  (1 <= interior <= width ->
   exists x y, fst ghosts <= x < snd ghosts /\ m fl x = Ok y /\ ~ (0 <= y < interior)).

(** [m] translates by the period [interior - 1]. *)
Definition translates (g : dim_shape) (m : flag -> Z -> res Z) : Prop :=
  let '(n, i, p) := g in
  (forall x, in_int (x + (i - 1)) -> m FN x = Ok (x + (i - 1))) /\
  (forall x, in_int (x - (i - 1)) -> m FP x = Ok (x - (i - 1))) /\
  (forall x y, in_int x -> (m FN x = Ok y -> m FP y = Ok x) /\ (m FP x = Ok y -> m FN y = Ok x)) /\
  m FN 0 = Ok (i - 1) /\ m FP (i - 1) = Ok 0 /\
  (n < i -> forall x, - n <= x < 0 -> exists y, m FN x = Ok y /\ 0 <= y < i) /\
  (p < i -> forall x, i <= x < i + p -> exists y, m FP x = Ok y /\ 0 <= y < i) /\
  (forall x, in_int x -> m FC x = Ok x).
