(** Multiplication and division of [double] on bit patterns, the reducer macros
    [PD_RF_PRO(double)] and [PD_RF_PRO_ABS(double)] of PointData.hpp:93-94, and
    [liton_sp::debug::exec_time] (lion_snippets.hpp:137-150).  Rounding is to nearest, ties to
    even, without excess precision; every NaN that results is the same (see M_FSum.v). *)

From Coq Require Import ZArith Bool.
From Verif Require Import Base M_Bytes M_Scan M_Loop M_Reduce M_FSum.
Open Scope Z_scope.

(** The sign of the result of [x * y] and of [x / y], as the bit it is. *)
Definition dsign (x y : Z) : Z := if xorb (2 ^ 63 <=? x) (2 ^ 63 <=? y) then 2 ^ 63 else 0.

(** [x * y]: the unit of the numbers is 2^-1074, the product of two has the unit 2^-2148. *)
Definition dmul (x y : Z) : Z :=
  match num64 x, num64 y with
  | NaN, _ | _, NaN => QNAN
  | Fin a, Fin b => dsign x y + round_f64 (Z.abs a * Z.abs b) (2 ^ 2148)
  | Fin a, _ | _, Fin a => if a =? 0 then QNAN else dsign x y + PINF
  | _, _ => dsign x y + PINF
  end.

(** [x / y] *)
Definition ddiv (x y : Z) : Z :=
  match num64 x, num64 y with
  | NaN, _ | _, NaN => QNAN
  | Fin a, Fin b =>
      if b =? 0 then (if a =? 0 then QNAN else dsign x y + PINF)
      else dsign x y + round_f64 (Z.abs a) (Z.abs b)
  | Fin _, _ => dsign x y
  | _, Fin _ => dsign x y + PINF
  | _, _ => QNAN
  end.

(** The conversion of a whole number ([unsigned], or [long]) to [double]. *)
Definition of_whole (z : Z) : Z := (if z <? 0 then 2 ^ 63 else 0) + round_f64 (Z.abs z) 1.

(** PointData.hpp:93 [PD_RF_PRO(double)]: [xx *= x]. *)
Definition RF_PRO_f64 (x xx : Z) : res Z := Ok (dmul xx x).
(** PointData.hpp:94 [PD_RF_PRO_ABS(double)]: [xx *= (x >= 0 ? x : -x)]. *)
Definition RF_PRO_ABS_f64 (x xx : Z) : res Z := Ok (dmul xx (fabs Double x)).

(** [a - b] for [clock_t], which is [long] (64 bits). *)
Definition csub (a b : Z) : res Z :=
  let d := a - b in if (- 2 ^ 63 <=? d) && (d <? 2 ^ 63) then Ok d else UB.

(** [CLOCKS_PER_SEC] (a [long] in <time.h> of POSIX systems). *)
Definition CLOCKS_PER_SEC : Z := 1000000.

(** [clock()]: the state counts the calls so far, call [k] returns [ticks k]. *)
Definition clock {S} (ticks : nat -> Z) : M (S * nat) Z :=
  fun st => let '(s, k) := st in Ret (s, Datatypes.S k) (ticks k).

(** lion_snippets.hpp:137-150, [debug::exec_time(N, exp)].  The state of the loop is that of the
    program and [t]; [exp] may read the clock as well. *)
Definition exec_time {S} (ticks : nat -> Z) (N : Z) (exp : M (S * nat) unit) : M (S * nat) Z :=
  fun st =>
    match for_uint 0 N (fun _ =>
            do* clock_begin := on_fst (clock ticks) in
            on_fst exp ;;;
            do* clock_end := on_fst (clock ticks) in
            do* d := lift (csub clock_end clock_begin) in
            upd_snd (fun t => dadd t (ddiv (of_whole d) (of_whole CLOCKS_PER_SEC)))) (st, 0) with
    | Ret (st', t) _ => Ret st' (ddiv t (of_whole N))
    | Thr (st', _) e => Thr st' e
    | Undef => Undef
    end.
