(** Client code as in test/Example_*.cpp: element expressions, assignments and
    loops over ranges, on top of the calls of M_World.v. *)

From Coq Require Import ZArith List Bool String.
From Verif Require Import Base M_Flags M_Loop M_RS1 M_RS2 M_RS3 M_Heap M_PD1 M_PD2 M_PD3 M_World.
Import ListNotations.
Open Scope Z_scope.

Section Client.
Context {V : Type}.

(** One call in the middle of client code: what it throws leaves the code. *)
Definition call (chk : bool) (c : op V) : M (world V) (result V) :=
  fun w => match step chk w c with
           | Some (w', RExn e) => Thr w' e
           | Some (w', r) => Ret w' r
           | None => Undef
           end.

(** An element named by client code, [a(n, q..., fl...)].  [a(n, q...)] without
    flags is the same element with flags [FC] (default arguments,
    PointData_1D.hpp:258, PointData_2D.hpp:362, PointData_3D.hpp:477). *)
Record elt := Elt { p_arr : nat; p_comp : Z; p_at : list Z; p_fl : list flag }.

(** The value of an element in an expression (for example [u(0, i - 1)],
    test/Example_D1_heat/Example_D1_heat.cpp:57).  Arithmetic on an element that
    was never written is undefined. *)
Definition get (chk : bool) (p : elt) : M (world V) V :=
  do* r := call chk (Read (p_arr p) (p_comp p) (p_at p) (p_fl p)) in
  match r with RVal (Some v) => ret v | _ => undef end.

Fixpoint get_all (chk : bool) (ps : list elt) : M (world V) (list V) :=
  match ps with
  | [] => ret []
  | p :: ps' => do* v := get chk p in do* vs := get_all chk ps' in ret (v :: vs)
  end.

(** Assignment to an element. *)
Definition set (chk : bool) (p : elt) (v : V) : M (world V) unit :=
  do* _ := call chk (Write (p_arr p) (p_comp p) (p_at p) (p_fl p) v) in ret tt.

(** [p = g(ps...)], for example [u(0, i) = u(0, i) + dt*dudt(0, i)]
    (test/Example_D1_heat/Example_D1_heat.cpp:60).  The right side is evaluated first; C++ before
    2017 leaves the order open, but the left side changes nothing. *)
Definition assign (chk : bool) (p : elt) (ps : list elt) (g : list V -> V) : M (world V) unit :=
  do* vs := get_all chk ps in set chk p (g vs).

(** [a.size()] (PointData_1D.hpp:255, PointData_2D.hpp:359, PointData_3D.hpp:474). *)
Definition size_D1 (a : nat) : M (world V) sizeT1 :=
  fun w => match find w a with Some (_, O1 o) => Ret w (pd1_size o) | _ => Undef end.
Definition size_D2 (a : nat) : M (world V) sizeT2 :=
  fun w => match find w a with Some (_, O2 o) => Ret w (pd2_size o) | _ => Undef end.
Definition size_D3 (a : nat) : M (world V) sizeT3 :=
  fun w => match find w a with Some (_, O3 o) => Ret w (pd3_size o) | _ => Undef end.

End Client.
