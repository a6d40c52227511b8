(** Locations, flags and regions: scr/liton_point_data/PointData.hpp:6-59. *)

From Coq Require Import ZArith.
From Verif Require Import Base.
Open Scope Z_scope.

(** PointData.hpp:6-13, [LO::LOCATION]. *)
Inductive loc := center | half.

(** PointData.hpp:10-11: the integer value of the enumerator, as used in
    [end(d) + loc - offset] and [size + _LOC0]. *)
Definition loc_val (l : loc) : Z := match l with center => 0 | half => 1 end.

(** PointData.hpp:14-22: the flag types [FL::_C], [FL::_N], [FL::_P].  The C++
    code selects overloads by these types at compile time; here they are
    values and overload sets are matches. *)
Inductive flag := FC | FN | FP.

(** PointData.hpp:16-18, [offset]. *)
Definition fl_offset (f : flag) : Z := match f with FC => 0 | FN => 0 | FP => 1 end.
(** PointData.hpp:16-18, [sign]. *)
Definition fl_sign (f : flag) : Z := match f with FC => 0 | FN => -1 | FP => 1 end.

(** PointData.hpp:23-33: the region types [RA::_N], [RA::_P], [RA::_IN], [RA::_ALL]. *)
Inductive ra := RN | RP | RIN | RALL.

(** PointData.hpp:38-40, [flra::f_c]. *)
Definition f_c (f : flag) : flag := match f with FN => FP | FP => FN | FC => FC end.

(** PointData.hpp:42-44, [flra::r_c]; there is no overload for [RA::_ALL]
    (a call with it does not compile): [None]. *)
Definition r_c (r : ra) : option ra :=
  match r with RN => Some RP | RP => Some RN | RIN => Some RIN | RALL => None end.

(** PointData.hpp:46-48, [flra::f_r]. *)
Definition f_r (f : flag) : ra := match f with FN => RN | FP => RP | FC => RIN end.
(** PointData.hpp:49-51, [flra::f_r_c]. *)
Definition f_r_c (f : flag) : ra := match f with FN => RP | FP => RN | FC => RIN end.

(** PointData.hpp:53-55, [flra::r_f]; no overload for [RA::_ALL]. *)
Definition r_f (r : ra) : option flag :=
  match r with RN => Some FN | RP => Some FP | RIN => Some FC | RALL => None end.
(** PointData.hpp:56-58, [flra::r_f_c]; no overload for [RA::_ALL]. *)
Definition r_f_c (r : ra) : option flag :=
  match r with RN => Some FP | RP => Some FN | RIN => Some FC | RALL => None end.

(** The two boundary flags accepted by the [bound] and [mirror] overload sets
    (PointData_1D.hpp:54-55 and :201-206): there is no overload for [FL::_C],
    such a call does not compile. *)
Inductive bflag := BN | BP.

(** The flag value of a boundary flag (PointData.hpp:17-18). *)
Definition bflag_flag (b : bflag) : flag := match b with BN => FN | BP => FP end.
