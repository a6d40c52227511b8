(** Specification vocabulary for zones and .plt files. *)

From Coq Require Import ZArith Ascii String List Bool.
From Verif Require Import Base M_Bytes M_TecZone Spec_Loop.
Import ListNotations.
Open Scope list_scope.
Open Scope Z_scope.

(** ** Sampling of a zone *)

(** The indices b, b+skip, b+2*skip, ... below max-e. *)
Definition sampled (max skip b e : Z) : list Z :=
  filter (fun i => (i - b) mod skip =? 0) (zrange b (max - e)).

(** How many there are. *)
Definition samples (max skip b e : Z) : Z := Z.of_nat (length (sampled max skip b e)).

(** One direction of a zone the library has to refuse. *)
Definition dir_bad (max skip b e : Z) : Prop := max = 0 \/ skip = 0 \/ max <= b + e.

(** One direction whose numbers are [int], with Begin and End not negative and their sum an [int]. *)
Definition dir_ints (max skip b e : Z) : Prop :=
  in_int max /\ 0 <= skip <= INT_MAX /\ 0 <= b /\ 0 <= e /\ b + e <= INT_MAX.

(** Something holds in each (in some) direction of a zone. *)
Definition all_dirs (P : Z -> Z -> Z -> Z -> Prop) (z : zone) : Prop :=
  P (x0 (z_max z)) (x0 (z_skip z)) (x0 (z_begin z)) (x0 (z_end z)) /\
  P (x1 (z_max z)) (x1 (z_skip z)) (x1 (z_begin z)) (x1 (z_end z)) /\
  P (x2 (z_max z)) (x2 (z_skip z)) (x2 (z_begin z)) (x2 (z_end z)).
Definition some_dir (P : Z -> Z -> Z -> Z -> Prop) (z : zone) : Prop :=
  P (x0 (z_max z)) (x0 (z_skip z)) (x0 (z_begin z)) (x0 (z_end z)) \/
  P (x1 (z_max z)) (x1 (z_skip z)) (x1 (z_begin z)) (x1 (z_end z)) \/
  P (x2 (z_max z)) (x2 (z_skip z)) (x2 (z_begin z)) (x2 (z_end z)).

(** The sampled indices of the three directions. *)
Definition sampled0 (z : zone) := sampled (x0 (z_max z)) (x0 (z_skip z)) (x0 (z_begin z)) (x0 (z_end z)).
Definition sampled1 (z : zone) := sampled (x1 (z_max z)) (x1 (z_skip z)) (x1 (z_begin z)) (x1 (z_end z)).
Definition sampled2 (z : zone) := sampled (x2 (z_max z)) (x2 (z_skip z)) (x2 (z_begin z)) (x2 (z_end z)).
Definition samples_of (z : zone) : list Z :=
  [Z.of_nat (length (sampled0 z)); Z.of_nat (length (sampled1 z)); Z.of_nat (length (sampled2 z))].

(** How many numbers of a list differ from 1. *)
Definition not_one (l : list Z) : Z := Z.of_nat (length (filter (fun n => negb (n =? 1)) l)).

(** Element [i] of an array of elements of [size] bytes. *)
Definition element (size : Z) (mem : bytes) (i : Z) : bytes :=
  firstn (Z.to_nat size) (skipn (Z.to_nat (i * size)) mem).

(** The block a zone writes for a variable: the sampled elements, first
    direction fastest. *)
Definition block_of (z : zone) (size : Z) (mem : bytes) : bytes :=
  flat_map (fun k =>
    flat_map (fun j =>
      flat_map (fun i => element size mem (i + x0 (z_max z) * (j + x1 (z_max z) * k)))
        (sampled0 z)) (sampled1 z)) (sampled2 z).

(** A direction that can be written: positive Skip, something left between Begin and End, and
    the loop variable, which goes one Skip too far, stays an [int]. *)
Definition dir_fits (max skip b e : Z) : Prop :=
  0 < skip /\ 0 <= b /\ 0 <= e /\ b + e < max /\ max - e + skip - 1 <= INT_MAX.

(** The number of elements of the user's array. *)
Definition org_count (z : zone) : Z := x0 (z_max z) * x1 (z_max z) * x2 (z_max z).

(** A variable of a zone that can be written: the array is at least as long as the zone says, and
    its byte count fits a signed 64 bit number. *)
Definition data_fits (z : zone) (d : tdata) (mem : bytes) : Prop :=
  d_mem d = Some mem /\ 0 < d_size d /\
  org_count z * d_size d <= Z.of_nat (length mem) /\
  org_count z * d_size d < 2 ^ 63.
Definition zone_fits (z : zone) : Prop := all_dirs dir_fits z /\ org_count z <= INT_MAX.

(** ** Minimum and maximum *)

(** Width in bytes of the element types (TEC_FLOAT, TEC_DOUBLE, TEC_LONGINT, TEC_SHORTINT, TEC_BYTE). *)
Definition width (type : Z) : Z :=
  match type with 1 => 4 | 2 => 8 | 3 => 4 | 4 => 2 | 5 => 1 | _ => 0 end.

(** The number a bit pattern of a type stands for, in units of 2^-1074. *)
Definition scale (k : Z) (x : num) : num := match x with Fin v => Fin (v * k) | y => y end.
Definition number (type b : Z) : num :=
  match type with
  | 1 => scale (2 ^ 925) (num32 b)
  | 2 => num64 b
  | 3 => Fin (signed 32 b * 2 ^ 1074)
  | 4 => Fin (signed 16 b * 2 ^ 1074)
  | 5 => Fin (signed 8 b * 2 ^ 1074)
  | _ => NaN
  end.

(** Order of the extended numbers. *)
Definition num_le (x y : num) : Prop :=
  match x, y with
  | NaN, _ | _, NaN => False
  | MInf, _ | _, PInf => True
  | Fin a, Fin b => a <= b
  | _, _ => False
  end.

(** Number [i] of a block. *)
Definition value (type : Z) (blk : bytes) (i : Z) : num := number type (unle (element (width type) blk i)).

(** [blk] is a block of [n] elements of a type. *)
Definition block (type n : Z) (blk : bytes) : Prop :=
  1 <= type <= 5 /\ 1 <= n /\ Z.of_nat (length blk) = n * width type.

(** The buffer starts with the bytes of a block. *)
Definition holds (buf : buffer) (blk : bytes) : Prop := firstn (length blk) buf = map Some blk.

(** [mn] and [mx], patterns of double, are the least and the greatest number of a block. *)
Definition extrema (type n : Z) (blk : bytes) (mn mx : Z) : Prop :=
  0 <= mn < 2 ^ 64 /\ 0 <= mx < 2 ^ 64 /\
  (exists i, 0 <= i < n /\ num64 mn = value type blk i) /\
  (exists i, 0 <= i < n /\ num64 mx = value type blk i) /\
  forall i, 0 <= i < n -> num_le (num64 mn) (value type blk i) /\ num_le (value type blk i) (num64 mx).
