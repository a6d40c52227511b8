(** The right hand sides of test/Example_D1_heat with the arithmetic of [double] on the elements. *)

From Coq Require Import ZArith.
From Verif Require Import Base M_Bytes M_Scan M_Reduce M_FSum M_FMul M_TimeLoop.
Open Scope Z_scope.

(** Example_D1_heat.cpp:57, [a_hh*(u(0, i - 1) - 2 * u(0, i) + u(0, i + 1))]; the [int] 2 is converted. *)
Definition lapD (a_hh a b c : Z) : Z := dmul a_hh (dadd (dsub a (dmul (of_whole 2) b)) c).
(** Example_D1_heat.cpp:60, [u(0, i) + dt*dudt(0, i)]. *)
Definition advD (dt a b : Z) : Z := dadd a (dmul dt b).
