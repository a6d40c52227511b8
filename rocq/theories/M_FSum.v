(** Addition of [double] on bit patterns, and the reducer macros [PD_RF_SUM(double)] and
    [PD_RF_SUM_ABS(double)] of PointData.hpp:91-92.  Rounding is to nearest, ties to even (the
    default of IEEE 754), without excess precision (as with SSE2 on x86-64).
    Simplification: every operation whose result is NaN gives the same NaN. *)

From Coq Require Import ZArith Bool.
From Verif Require Import Base M_Bytes M_Scan M_Reduce.
Open Scope Z_scope.

(** The pattern of NaN and of the infinities. *)
Definition QNAN : Z := 2047 * 2 ^ 52 + 2 ^ 51.
Definition PINF : Z := 2047 * 2 ^ 52.
Definition MINF : Z := 2 ^ 63 + 2047 * 2 ^ 52.

(** [x + y]: the sum of the numbers, rounded ([round_f64] is in M_Scan.v; the unit of the
    numbers is 2^-1074, see M_Bytes.v).  A sum that is zero has the sign plus unless both
    operands have the sign minus. *)
Definition dadd (x y : Z) : Z :=
  match num64 x, num64 y with
  | NaN, _ | _, NaN => QNAN
  | PInf, MInf | MInf, PInf => QNAN
  | PInf, _ | _, PInf => PINF
  | MInf, _ | _, MInf => MINF
  | Fin a, Fin b =>
      let t := a + b in
      if t =? 0 then (if (2 ^ 63 <=? x) && (2 ^ 63 <=? y) then 2 ^ 63 else 0)
      else if 0 <? t then round_f64 t (2 ^ 1074)
      else 2 ^ 63 + round_f64 (- t) (2 ^ 1074)
  end.

(** PointData.hpp:91 [PD_RF_SUM(double)]: [xx += x]. *)
Definition RF_SUM_f64 (x xx : Z) : res Z := Ok (dadd xx x).
(** PointData.hpp:92 [PD_RF_SUM_ABS(double)]: [xx += (x >= 0 ? x : -x)]. *)
Definition RF_SUM_ABS_f64 (x xx : Z) : res Z := Ok (dadd xx (fabs Double x)).
