(** Specification vocabulary for describing a zone by an array. *)

From Coq Require Import ZArith String List Bool.
From Verif Require Import Base M_Flags M_Bytes M_TecZone M_TecFile M_Heap M_PD1 M_PD2 M_PD3 M_World
  Spec Spec_Loop Spec_Array Spec_Hist Spec_Reach Spec_Read.
Import ListNotations.
Open Scope list_scope.
Open Scope Z_scope.

(** [z'] is [z] with the leading entries of Max, Begin and End replaced: the numbers of points of the dimensions, of
    all regions, of region N and of region P, last dimension first. *)
Definition described (gs : list dim_shape) (z z' : zone) : Prop :=
  let D := length gs in
  list3 (z_max z') = rev (map (fun '(n, i, p) => n + i + p) gs) ++ skipn D (list3 (z_max z)) /\
  list3 (z_begin z') = rev (map (fun '(n, _, _) => n) gs) ++ skipn D (list3 (z_begin z)) /\
  list3 (z_end z') = rev (map (fun '(_, _, p) => p) gs) ++ skipn D (list3 (z_end z)) /\
  z_skip z' = z_skip z /\ z_name z' = z_name z /\ z_strand z' = z_strand z /\ z_time z' = z_time z /\
  z_aux z' = z_aux z /\ z_data z' = z_data z /\ z_echo z' = z_echo z.
