(** The right hand side of test/Example_D2_heat with the arithmetic of [double] on the elements.  Example_D2_heat.cpp:94 is
    [lapD a_hh_x] and line 100 is [advD dt] (M_HeatD.v); the minus sign of lines 90-91 is [fneg Double]. *)

From Coq Require Import ZArith.
From Verif Require Import Base M_Bytes M_Scan M_Reduce M_FSum M_FMul M_TimeLoop M_HeatD.
Open Scope Z_scope.

(** Example_D2_heat.cpp:97, [dudt(0, i, j) += a_hh_y*(u(0, i, j - 1) - 2 * u(0, i, j) + u(0, i, j + 1))]. *)
Definition lapyD (a_hh d a b c : Z) : Z := dadd d (lapD a_hh a b c).
