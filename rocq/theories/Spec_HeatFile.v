(** Specification vocabulary for the file of Example_D2_heat. *)

From Coq Require Import ZArith String List.
From Verif Require Import Base M_Bytes M_TecZone Spec_Tec Spec_Plt.
Import ListNotations.
Open Scope Z_scope.

(** A variable of a zone has, in double precision, the values [v i j] for [0 <= i < Nx] and [0 <= j < Ny], and no others; [j] runs
    fastest. *)
Definition has_values {V} (enc : V -> bytes) (Nx Ny : Z) (q : pvar) (v : Z -> Z -> V) : Prop :=
  pv_type q = 2 /\ Z.of_nat (length (pv_data q)) = Nx * Ny * 8 /\
  forall i j, 0 <= i < Nx -> 0 <= j < Ny -> element 8 (pv_data q) (i * Ny + j) = enc (v i j).
