(** test/Example_D1_integration/Example_D1_integration.cpp with the arithmetic of [double] (M_FSum.v, M_FMul.v) in the
    program of M_Examples.v.  [pow(x, 0.5)] is a parameter [root]. *)

From Coq Require Import ZArith Ascii String List Bool.
From Verif Require Import Base M_Bytes M_Scan M_Reduce M_FSum M_FMul M_Flags M_Loop M_RS1 M_Heap M_PD1 M_World M_Client M_Print.
From Verif Require M_Examples.
Import ListNotations.
Open Scope string_scope.
Open Scope Z_scope.

(** Example_D1_integration.cpp:24-25: [x0] and [x1]. *)
Definition x0 : Z := of_whole 0.
Definition x1 : Z := of_whole 1.
(** [x - y] for [double] *)
Definition dsub (x y : Z) : Z := dadd x (fneg Double y).
(** Example_D1_integration.cpp:26, [h = (x1 - x0) / (N - 1)], where [N - 1] is [unsigned]. *)
Definition mesh (N : Z) : Z := ddiv (dsub x1 x0) (of_whole (uwrap (N - 1))).
(** Example_D1_integration.cpp:32, [static_cast<double>(i) * h]. *)
Definition abscissa (N i : Z) : Z := dmul (of_whole i) (mesh N).
(** Example_D1_integration.cpp:48, [sum[n] /= (N - 1)]. *)
Definition mean (N s : Z) : Z := ddiv s (of_whole (uwrap (N - 1))).

(** Example_D1_integration.cpp:28-51; the result is the list of the numbers written to the file. *)
Definition integral (chk : bool) (N reps : Z) (root : Z -> Z) : M (world Z * list Z) unit :=
  M_Examples.integration chk N reps (abscissa N) root 0 (fun x xx => dadd xx x) (mean N).

(** Example_D1_integration.cpp:49, [out << "ans = " << sum[n] << endl]. *)
Definition answer_line (v : Z) : string := "ans = " ++ fmt_g v ++ NL.
