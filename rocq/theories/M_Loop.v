(** The two loop forms used by all headers, and the dimension independent
    helpers of PointData.hpp:61-98. *)

From Coq Require Import ZArith List Bool.
From Verif Require Import Base.
Import ListNotations.
Open Scope Z_scope.

(** [k] iterations of a loop body from index [i] upwards, [int] index. *)
Fixpoint iter_int {S} (k : nat) (i : Z) (body : Z -> M S unit) : M S unit :=
  match k with
  | O => ret tt
  | Datatypes.S k' => body i ;;; iter_int k' (i + 1) body
  end.

(** [for (int i = b; i != e; ++i) body(i);] (for example PointData_1D.hpp:123).
    When [b > e] the index runs up to [INT_MAX] and the next [++i] overflows,
    which is undefined behaviour. *)
Definition for_int {S} (b e : Z) (body : Z -> M S unit) : M S unit :=
  if b <=? e then iter_int (Z.to_nat (e - b)) b body
  else iter_int (Z.to_nat (INT_MAX - b + 1)) b body ;;; undef.

(** [k] iterations with an [unsigned] index, which wraps. *)
Fixpoint iter_uint {S} (k : nat) (i : Z) (body : Z -> M S unit) : M S unit :=
  match k with
  | O => ret tt
  | Datatypes.S k' => body i ;;; iter_uint k' (uwrap (i + 1)) body
  end.

(** [for (unsigned n = b; n != e; ++n) body(n);] (for example PointData.hpp:64).
    When [b > e] the index wraps through 0, which is defined. *)
Definition for_uint {S} (b e : Z) (body : Z -> M S unit) : M S unit :=
  iter_uint (Z.to_nat (uwrap (e - b))) b body.

(** PointData.hpp:61-68, [PD_For_N]. *)
Definition PD_For_N {S} (N_b N_e : Z) (fn : Z -> M S unit) : M S unit :=
  for_uint N_b N_e fn.

(** One reduction step [reduce(fun(..), temp)]: the state of the loop is the
    user's state and the local [temp].  Simplification: a reducer is a function
    from the argument and the old accumulator to the new accumulator which may
    be undefined (signed overflow, say) or throw; it has no other effect. *)
Definition red_step {S T} (reduce : T -> T -> res T) (x : M S T) : M (S * T) unit :=
  do* v := on_fst x in
  fun st => let '(s, temp) := st in
            match reduce v temp with
            | Ok temp' => Ret (s, temp') tt
            | Err e => Thr (s, temp) e
            | UB => Undef
            end.

(** [T temp = ans; <loop>; reduce(temp, ans);] (for example PointData.hpp:73-78).
    The result is the final value of the reference parameter [ans]; when
    something throws, [ans] keeps its value (it is only assigned at the end). *)
Definition red_frame {S T} (ans : T) (reduce : T -> T -> res T)
           (loop : M (S * T) unit) : M S T :=
  fun s => match loop (s, ans) with
           | Ret (s', temp) _ => lift (reduce temp ans) s'
           | Thr (s', _) e => Thr s' e
           | Undef => Undef
           end.

(** PointData.hpp:70-79, [PD_Reduce_N]. *)
Definition PD_Reduce_N {S T} (N_b N_e : Z) (ans : T) (reduce : T -> T -> res T)
           (fn : Z -> M S T) : M S T :=
  red_frame ans reduce (for_uint N_b N_e (fun n => red_step reduce (fn n))).

(** PointData.hpp:91-98: the reducer macros at type [int].  [x >= 0 ? x : -x]
    is [iabs] (undefined for [INT_MIN]). *)
Definition iabs (x : Z) : res Z := if 0 <=? x then Ok x else ineg x.

(** PointData.hpp:91 [PD_RF_SUM(int)]. *)
Definition RF_SUM (x xx : Z) : res Z := iadd xx x.
(** PointData.hpp:92 [PD_RF_SUM_ABS(int)]. *)
Definition RF_SUM_ABS (x xx : Z) : res Z := let* a := iabs x in iadd xx a.
(** PointData.hpp:93 [PD_RF_PRO(int)]. *)
Definition RF_PRO (x xx : Z) : res Z := imul xx x.
(** PointData.hpp:94 [PD_RF_PRO_ABS(int)]. *)
Definition RF_PRO_ABS (x xx : Z) : res Z := let* a := iabs x in imul xx a.
(** PointData.hpp:95 [PD_RF_MAX(int)]. *)
Definition RF_MAX (x xx : Z) : res Z := Ok (if xx <? x then x else xx).
(** PointData.hpp:96 [PD_RF_MAX_ABS(int)]. *)
Definition RF_MAX_ABS (x xx : Z) : res Z :=
  let* a := iabs x in Ok (if xx <? a then a else xx).
(** PointData.hpp:97 [PD_RF_MIN(int)]. *)
Definition RF_MIN (x xx : Z) : res Z := Ok (if xx >? x then x else xx).
(** PointData.hpp:98 [PD_RF_MIN_ABS(int)]. *)
Definition RF_MIN_ABS (x xx : Z) : res Z :=
  let* a := iabs x in Ok (if xx >? a then a else xx).
