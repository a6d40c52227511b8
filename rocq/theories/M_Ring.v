(** A client program: a periodic field distributed over a ring of one-dimensional arrays.

    The program is not in /repo.  It is written with the calls of PointData_1D.hpp that a user of the
    library has for this purpose: the constructor with sizes (PointData_1D.hpp:355-367), the loop PD_For_1D over
    size().range (PointData_1D.hpp:118-127, 210-211, 255), operator() (PointData_1D.hpp:257-265) and copy_from with region
    tags and boundary flags (PointData_1D.hpp:293-296).  The arithmetic of the element type is given by
    the function [stc], the number of passes is a parameter. *)

From Coq Require Import ZArith List Bool.
From Verif Require Import Base M_Flags M_Loop M_RS1 M_Heap M_PD1 M_World M_Client M_Examples Spec_Loop.
Import ListNotations.
Open Scope Z_scope.

Section Ring.
Context {V : Type}.
Variable chk : bool.

(** Component [n] at point [i] of array [j]: 0 is the field, 1 the field after the pass. *)
Definition ur (j : nat) (n i : Z) : elt := Elt j n [i] [FC].

(** PointData_1D.hpp:355-367, the constructors: one array for each width, [g] ghost points on both sides. *)
Definition make_ring (g : Z) (ns : list Z) : M (world V) unit :=
  run ns (fun n => do* _ := call chk (NewSized (K1 2 center) [(g, n, g)]) in ret tt).

(** Arrays and the number of their first point. *)
Fixpoint places (j : nat) (o : Z) (ns : list Z) : list (nat * Z) :=
  match ns with
  | [] => []
  | n :: ns' => (j, o) :: places (S j) (o + n) ns'
  end.

Definition fill_ring (ns : list Z) (ini : Z -> V) : M (world V) unit :=
  run (places 0 0 ns) (fun '(j, o) => over1 chk j RIN (fun i => set chk (ur j 0 i) (ini (o + i)))).

(** The array on the right in a ring of [m]. *)
Definition right_of (m j : nat) : nat := if Nat.eqb (S j) m then O else S j.

(** PointData_1D.hpp:293-296: the ghost points between array [j] and the one on its right. *)
Definition join (m j : nat) : M (world V) unit :=
  do* _ := call chk (CopyTagFl j (right_of m j) [RP] [RIN] [BN]) in
  do* _ := call chk (CopyTagFl (right_of m j) j [RN] [RIN] [BP]) in ret tt.

(** The values around point [i]. *)
Fixpoint around (j : nat) (i : Z) (ds : list Z) : M (world V) (list V) :=
  match ds with
  | [] => ret []
  | d :: ds' =>
      do* q := lift (iadd i d) in do* v := get chk (ur j 0 q) in do* vs := around j i ds' in ret (v :: vs)
  end.

Definition advance (stc : list V -> V) (ds : list Z) (j : nat) : M (world V) unit :=
  over1 chk j RIN (fun i => do* vs := around j i ds in set chk (ur j 1 i) (stc vs)).
Definition accept (j : nat) : M (world V) unit :=
  over1 chk j RIN (fun i => do* v := get chk (ur j 1 i) in set chk (ur j 0 i) v).

(** One pass: fill the ghost points of all arrays, then advance all of them. *)
Definition ring_pass (m : nat) (stc : list V -> V) (ds : list Z) : M (world V) unit :=
  run (seq 0 m) (join m) ;;; run (seq 0 m) (advance stc ds) ;;; run (seq 0 m) accept.

Definition ring (g : Z) (ns : list Z) (ini : Z -> V) (stc : list V -> V) (ds : list Z) (k : nat) : M (world V) unit :=
  make_ring g ns ;;; fill_ring ns ini ;;; passes k (ring_pass (length ns) stc ds).

End Ring.
