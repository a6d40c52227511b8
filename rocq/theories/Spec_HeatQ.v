(** The right hand sides of the heat examples in exact arithmetic, and the heat content. *)

From Coq Require Import ZArith QArith List.
From Verif Require Import Base Spec_Loop.
Import ListNotations.

(** test/Example_D1_heat/Example_D1_heat.cpp:57, [a_hh*(u(0, i - 1) - 2 * u(0, i) + u(0, i + 1))]. *)
Definition lapQ (A a b c : Q) : Q := (A * (a - 2 * b + c))%Q.
(** Example_D1_heat.cpp:60, [u(0, i) + dt*dudt(0, i)]. *)
Definition advQ (dt a b : Q) : Q := (a + dt * b)%Q.
(** test/Example_D2_heat/Example_D2_heat.cpp:97, [dudt(0, i, j) += a_hh_y*(...)]. *)
Definition lapyQ (A d a b c : Q) : Q := (d + A * (a - 2 * b + c))%Q.

Definition qsum (l : list Q) : Q := fold_right Qplus 0%Q l.

(** The heat content (trapezoidal rule, in units of the mesh width) of a function on 0 .. N-1. *)
Definition heat_content (N : Z) (f : Z -> Q) : Q :=
  (f 0%Z / 2 + qsum (map f (zrange 1 (N - 1))) + f (N - 1)%Z / 2)%Q.
