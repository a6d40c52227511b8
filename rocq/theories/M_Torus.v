(** A client program: a periodic field in one, two or three dimensions cut into a grid of arrays.

    The program is not in /repo.  It is written with the calls that a user of the library has for this purpose: the
    constructor with sizes (PointData_1D.hpp:355-367, PointData_2D.hpp:474-487, PointData_3D.hpp:599-613), the loops
    PD_For_1D, PD_For_2D, PD_For_3D over size().range (PointData_1D.hpp:118-127, PointData_2D.hpp:132-146,
    PointData_3D.hpp:140-159), operator() (PointData_1D.hpp:257-265, PointData_2D.hpp:361-370, PointData_3D.hpp:476-486)
    and copy_from with region tags and boundary flags (PointData_1D.hpp:293-296, PointData_2D.hpp:398-407,
    PointData_3D.hpp:515-524).  The arithmetic of the element type is given by the function [stc], the number of
    passes is a parameter. *)

From Coq Require Import ZArith List Bool.
From Verif Require Import Base M_Flags M_Loop M_RS1 M_RS2 M_RS3 M_Heap M_PD1 M_PD2 M_PD3 M_World M_Client M_Examples M_Ring Spec_Loop.
Import ListNotations.
Open Scope Z_scope.

(** A direction: the number of ghost points, and the widths of the arrays along it. *)
Definition direction := (Z * list Z)%type.

(** All ways to take one element of every list, the last list running fastest. *)
Fixpoint choices {A} (ls : list (list A)) : list (list A) :=
  match ls with
  | [] => [[]]
  | l :: ls' => flat_map (fun x => map (cons x) (choices ls')) l
  end.

Definition count (gr : list direction) : nat := fold_right (fun d n => (length (snd d) * n)%nat) 1%nat gr.

(** The arrays, by their place along every direction, and their numbers in order of construction. *)
Definition tiles (gr : list direction) : list (list nat) := choices (map (fun d => seq 0 (length (snd d))) gr).
Fixpoint tile (gr : list direction) (t : list nat) : nat :=
  match gr, t with
  | _ :: gr', x :: t' => (x * count gr' + tile gr' t')%nat
  | _, _ => O
  end.

(** Two components at integer points. *)
Definition kind_of (gr : list direction) : kind :=
  match gr with
  | [_] => K1 2 center
  | [_; _] => K2 2 center center
  | _ => K3 2 center center center
  end.

Fixpoint shape (gr : list direction) (ws : list Z) : list (Z * Z * Z) :=
  match gr, ws with
  | d :: gr', w :: ws' => (fst d, w, fst d) :: shape gr' ws'
  | _, _ => []
  end.

(** The array to the right along direction number [e]. *)
Fixpoint next (gr : list direction) (e : nat) (t : list nat) : list nat :=
  match gr, t, e with
  | d :: _, x :: t', O => right_of (length (snd d)) x :: t'
  | _ :: gr', x :: t', S e' => x :: next gr' e' t'
  | _, _, _ => t
  end.

(** The region tags of an exchange along direction [e]: all points in the directions already done, [x] along [e],
    interior points in the others. *)
Fixpoint tags (gr : list direction) (e : nat) (x : ra) : list ra :=
  match gr, e with
  | [], _ => []
  | _ :: gr', O => x :: map (fun _ => RIN) gr'
  | _ :: gr', S e' => RALL :: tags gr' e' x
  end.
Definition inner (gr : list direction) : list ra := map (fun _ => RIN) gr.
Definition flags (gr : list direction) (fl : bflag) : list bflag := map (fun _ => fl) gr.

(** The first point of an array. *)
Fixpoint origin (gr : list direction) (t : list nat) : list Z :=
  match gr, t with
  | d :: gr', x :: t' => fold_right Z.add 0 (firstn x (snd d)) :: origin gr' t'
  | _, _ => []
  end.

Section Torus.
Context {V : Type}.
Variable chk : bool.
Variable gr : list direction.

(** Component [c] at point [q] of the array at [t]. *)
Definition ut (t : list nat) (c : Z) (q : list Z) : elt := Elt (tile gr t) c q (map (fun _ => FC) q).

(** PointData_3D.hpp:404-410 and 140-159: [a.size().range(t0, t1, t2)] and the loop over it. *)
Definition over3 (a : nat) (t0 t1 t2 : ra) (body : Z -> Z -> Z -> M (world V) unit) : M (world V) unit :=
  do* s := size_D3 a in do* r := lift (srange3 chk s t0 t1 t2) in PD_For_3D chk r body.

(** The loop over the points with the given tags. *)
Definition over_tags (a : nat) (ts : list ra) (body : list Z -> M (world V) unit) : M (world V) unit :=
  match ts with
  | [t0] => over1 chk a t0 (fun i => body [i])
  | [t0; t1] => over2 chk a t0 t1 (fun i j => body [i; j])
  | [t0; t1; t2] => over3 a t0 t1 t2 (fun i j k => body [i; j; k])
  | _ => undef
  end.

Definition make_torus : M (world V) unit :=
  run (choices (map snd gr)) (fun ws => do* _ := call chk (NewSized (kind_of gr) (shape gr ws)) in ret tt).

Fixpoint vplus (q d : list Z) : list Z :=
  match q, d with
  | x :: q', y :: d' => x + y :: vplus q' d'
  | _, _ => []
  end.

Definition fill_torus (ini : list Z -> V) : M (world V) unit :=
  run (tiles gr) (fun t => over_tags (tile gr t) (inner gr) (fun q => set chk (ut t 0 q) (ini (vplus (origin gr t) q)))).

(** The ghost points between an array and the one to the right along direction [e]. *)
Definition join_along (e : nat) (t : list nat) : M (world V) unit :=
  do* _ := call chk (CopyTagFl (tile gr t) (tile gr (next gr e t)) (tags gr e RP) (tags gr e RIN) (flags gr BN)) in
  do* _ := call chk (CopyTagFl (tile gr (next gr e t)) (tile gr t) (tags gr e RN) (tags gr e RIN) (flags gr BP)) in ret tt.

(** The sums of [int]s for the index of a neighbour. *)
Fixpoint shifted (q d : list Z) : res (list Z) :=
  match q, d with
  | x :: q', y :: d' => let* z := iadd x y in let* r := shifted q' d' in Ok (z :: r)
  | _, _ => Ok []
  end.

Fixpoint around_at (t : list nat) (q : list Z) (ds : list (list Z)) : M (world V) (list V) :=
  match ds with
  | [] => ret []
  | d :: ds' =>
      do* p := lift (shifted q d) in do* v := get chk (ut t 0 p) in do* vs := around_at t q ds' in ret (v :: vs)
  end.

Definition advance_at (stc : list V -> V) (ds : list (list Z)) (t : list nat) : M (world V) unit :=
  over_tags (tile gr t) (inner gr) (fun q => do* vs := around_at t q ds in set chk (ut t 1 q) (stc vs)).
Definition accept_at (t : list nat) : M (world V) unit :=
  over_tags (tile gr t) (inner gr) (fun q => do* v := get chk (ut t 1 q) in set chk (ut t 0 q) v).

(** One pass: exchange along one direction after the other, then advance all arrays. *)
Definition torus_pass (stc : list V -> V) (ds : list (list Z)) : M (world V) unit :=
  run (seq 0 (length gr)) (fun e => run (tiles gr) (join_along e)) ;;;
  run (tiles gr) (advance_at stc ds) ;;; run (tiles gr) accept_at.

Definition torus (ini : list Z -> V) (stc : list V -> V) (ds : list (list Z)) (k : nat) : M (world V) unit :=
  make_torus ;;; fill_torus ini ;;; passes k (torus_pass stc ds).

End Torus.
