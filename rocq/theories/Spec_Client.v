(** Specification vocabulary for client code with loops. *)

From Coq Require Import ZArith List Bool.
From Verif Require Import Base M_Flags M_Heap M_PD1 M_PD2 M_PD3 M_World M_Client Spec Spec_Loop Spec_Array Spec_Hist Spec_Reach.
Import ListNotations.
Open Scope Z_scope.

Section Client.
Context {V : Type}.

(** No array was left half made by an allocation that ran out of memory. *)
Definition intact (aw : aworld V) : Prop := forall a, healthy aw a.

(** The element [p] exists in world [w], and reading it gives [v] ([None]: never written). *)
Definition cell (w : world V) (p : elt) (v : option V) : Prop :=
  exists k o, find w (p_arr p) = Some (k, o) /\ accepts k (m_size o) (p_comp p) (p_at p) (p_fl p) /\
              reads w k o (p_comp p) (slot_of (p_at p) (p_fl p)) v.

(** Two names of one element. *)
Definition same_elt (p p' : elt) : Prop :=
  p_arr p = p_arr p' /\ p_comp p = p_comp p' /\ slot_of (p_at p) (p_fl p) = slot_of (p_at p') (p_fl p').

(** A loop visits the points [q] of [dom], each once, in the order [before]; at [q] it assigns a value
    made of the elements [srcs q] to the element [tgt q]. *)
Section Loop.
Context {A : Type} (before : A -> A -> Prop) (dom : A -> Prop) (tgt : A -> elt) (srcs : A -> list elt).

(** [p] is assigned before the loop visits [q]. *)
Definition assigned_before (p : elt) (q : A) : Prop := exists q', dom q' /\ before q' q /\ same_elt p (tgt q').

(** The loop may start: all elements exist, no element is assigned twice, and what is used at a point
    was written before the loop or is assigned before this point. *)
Definition loop_ready (w : world V) : Prop :=
  (forall q, dom q -> exists v, cell w (tgt q) v) /\
  (forall q q', dom q -> dom q' -> same_elt (tgt q) (tgt q') -> q = q') /\
  (forall q p, dom q -> In p (srcs q) -> exists v, cell w p v /\ (v <> None \/ assigned_before p q)).

(** [w'] is [w] after the loop: each element assigned holds the value [g q] made of what the sources
    held at this time - the new value if they were assigned before, otherwise the value they had
    before the loop; all other elements are unchanged. *)
Definition loop_done (g : A -> list V -> V) (w w' : world V) : Prop :=
  (forall q, dom q -> exists vs,
     Forall2 (fun p v => (assigned_before p q /\ cell w' p (Some v)) \/
                         (~ assigned_before p q /\ cell w p (Some v))) (srcs q) vs /\
     cell w' (tgt q) (Some (g q vs))) /\
  (forall p v, (forall q, dom q -> ~ same_elt p (tgt q)) -> (cell w' p v <-> cell w p v)).
End Loop.

(** Combining the values of a list with [reduce], first value first; the first combination that throws
    (or is undefined) ends it. *)
Fixpoint fold_res {T} (reduce : T -> T -> res T) (l : list T) (acc : T) : res T :=
  match l with
  | [] => Ok acc
  | v :: l' => let* acc' := reduce v acc in fold_res reduce l' acc'
  end.

End Client.

(** ** What the example programs compute *)

Section Heat.
Context {V : Type}.

(** A function on 0 .. N-1, mirrored at both ends. *)
Definition ext (N : Z) (f : Z -> V) (i : Z) : V :=
  if i <? 0 then f (- i) else if N <=? i then f (2 * (N - 1) - i) else f i.

(** One explicit time step: [lap] of the point and its neighbours, then [adv]. *)
Definition heat_step (N : Z) (lap : V -> V -> V -> V) (adv : V -> V -> V) (f : Z -> V) (i : Z) : V :=
  adv (f i) (lap (ext N f (i - 1)) (f i) (ext N f (i + 1))).

(** The same in two dimensions; in the first dimension the mirror image is negated. *)
Definition ext_x (neg : V -> V) (N : Z) (f : Z -> Z -> V) (i j : Z) : V :=
  if i <? 0 then neg (f (- i) j) else if N <=? i then neg (f (2 * (N - 1) - i) j) else f i j.
Definition ext_y (N : Z) (f : Z -> Z -> V) (i j : Z) : V := ext N (f i) j.

Definition heat_step2 (Nx Ny : Z) (neg : V -> V) (lapx : V -> V -> V -> V) (lapy : V -> V -> V -> V -> V) (adv : V -> V -> V)
    (f : Z -> Z -> V) (i j : Z) : V :=
  let dx := lapx (ext_x neg Nx f (i - 1) j) (f i j) (ext_x neg Nx f (i + 1) j) in
  adv (f i j) (lapy dx (ext_y Ny f i (j - 1)) (f i j) (ext_y Ny f i (j + 1))).
End Heat.

(** A sum as the library forms it: from [zero] by adding one value after the other, [zero] added once more. *)
Definition total {V} (add : V -> V -> V) (zero : V) (vs : list V) : V :=
  add (fold_left (fun acc v => add v acc) vs zero) zero.
