(** The reducer macros of PointData.hpp:95-98 at the types [float] and [double].
    (At [int] they are in M_Loop.v.)  Numbers are bit patterns, see M_Bytes.v.
    The sums at [double] are in M_FSum.v; the sums at [float] and the products at both types
    (PointData.hpp:91-94) are not modelled. *)

From Coq Require Import ZArith Bool.
From Verif Require Import Base M_Bytes.
Open Scope Z_scope.

(** The parameter [type] of the macros. *)
Inductive ftype := Float | Double.
(** Number of bits of a value, and the number it stands for (M_Bytes.v). *)
Definition fbits (t : ftype) : Z := match t with Float => 32 | Double => 64 end.
Definition fval (t : ftype) : Z -> num := match t with Float => num32 | Double => num64 end.

(** [-x] of PointData.hpp:96, 98: the sign bit is inverted, of a NaN as well. *)
Definition fneg (t : ftype) (x : Z) : Z :=
  let top := 2 ^ (fbits t - 1) in if x <? top then x + top else x - top.
(** [a < b] of PointData.hpp:95-98; [a > b] is [b < a]. *)
Definition flt (t : ftype) (a b : Z) : bool := num_lt (fval t a) (fval t b).
(** [x >= 0], false for a NaN. *)
Definition fnonneg (t : ftype) (x : Z) : bool :=
  match fval t x with NaN => false | v => negb (num_lt v (Fin 0)) end.
(** [x >= 0 ? x : -x] of PointData.hpp:96, 98. *)
Definition fabs (t : ftype) (x : Z) : Z := if fnonneg t x then x else fneg t x.

(** PointData.hpp:95 [PD_RF_MAX(type)]. *)
Definition RF_MAX_fp (t : ftype) (x xx : Z) : res Z := Ok (if flt t xx x then x else xx).
(** PointData.hpp:96 [PD_RF_MAX_ABS(type)]. *)
Definition RF_MAX_ABS_fp (t : ftype) (x xx : Z) : res Z :=
  let x_abs := fabs t x in Ok (if flt t xx x_abs then x_abs else xx).
(** PointData.hpp:97 [PD_RF_MIN(type)]. *)
Definition RF_MIN_fp (t : ftype) (x xx : Z) : res Z := Ok (if flt t x xx then x else xx).
(** PointData.hpp:98 [PD_RF_MIN_ABS(type)]. *)
Definition RF_MIN_ABS_fp (t : ftype) (x xx : Z) : res Z :=
  let x_abs := fabs t x in Ok (if flt t x_abs xx then x_abs else xx).
