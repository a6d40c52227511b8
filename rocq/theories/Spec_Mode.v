(** The two build modes: which exceptions come from a check (C14). *)

From Coq Require Import ZArith List Bool.
From Verif Require Import Base M_PD0 M_World.
Import ListNotations.

(** The exceptions thrown in the parts of the headers between
    [#ifdef _CHECK_POINTDATA_RANGE] and [#endif]: dimension number, no overlap
    of the two ranges of a copy, index, component number, flags, no data,
    self-copy. *)
Definition from_check (e : exn) : bool :=
  match e with
  | EDim _ _ | EOverlapNotFound | ERangeC _ _ _ _ | ERangeH _ _ _ _ _ _ | EN _ _
  | EFlagCenter _ | EFlagHalf _ | ENoData | ECopyOverlap => true
  | _ => false
  end.

(** The result of a call that is not an exception of a check. *)
Definition unchecked_result {V} (r : result V) : Prop :=
  match r with RExn e => from_check e = false | _ => True end.

(** [rsim x y]: [x] is the result of a call with checks, [y] of the same call
    without.  An ordinary result is the same in both; an exception comes from a
    check or is the same in both.  (Nothing is said when the call with checks is
    undefined.) *)
Definition rsim {A} (x y : res A) : Prop :=
  match x with
  | Ok a => y = Ok a
  | Err e => from_check e = true \/ y = Err e
  | UB => True
  end.

(** The same for calls with effects: the states reached are equal too. *)
Definition msim {S A} (x y : M S A) : Prop :=
  forall s, match x s with
            | Ret s' a => y s = Ret s' a
            | Thr s' e => from_check e = true \/ y s = Thr s' e
            | Undef => True
            end.

(** The result of a statement on a 0D array that is not an exception of a check. *)
Definition unchecked_result0 {V} (r : result0 V) : Prop :=
  match r with Threw e => from_check e = false | _ => True end.
