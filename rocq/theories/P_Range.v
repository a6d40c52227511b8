(** Properties C01 - C08: shapes and index boxes.

    Reading guide: [faces1/2/3 r] is the list of (low, high) faces of a
    [RangeT] (high excluded), [in_box] membership of an index point, [region]
    the faces of RA::N / RA::IN / RA::P / RA::ALL, all in Spec.v.  [chk] is
    whether _CHECK_POINTDATA_RANGE is defined.  [Ok], [Err] and [UB] are normal
    return, thrown exception and undefined behaviour (signed overflow). *)

From Coq Require Import ZArith List Bool Lia.
From Verif Require Import Base M_Flags M_Loop M_RS1 M_RS2 M_RS3 Spec L_Base L_RS L_Range.
Import ListNotations.
Open Scope Z_scope.

Ltac fits_tac := repeat (apply Forall_cons || apply Forall_nil); unfold in_int; cbn; lia.

(** ** C01: ghost and interior regions tile the array *)

Theorem C01_regions_tile_D1 chk n i p :
  dim_fits (n, i, p) ->
  let s := mk_sizeT1 n i p in
  (forall t fl,
     sbegin1 chk s 0 t = Ok (fst (region (n, i, p) t)) /\
     send1 chk s 0 t = Ok (snd (region (n, i, p) t)) /\
     slast1 chk s 0 t = Ok (snd (region (n, i, p) t) - 1) /\
     sbound1 chk s 0 t fl = Ok (edge (region (n, i, p) t) fl)) /\
  ssize1 chk s 0 RN = Ok n /\ ssize1 chk s 0 RIN = Ok i /\
  ssize1 chk s 0 RP = Ok p /\ ssize1 chk s 0 RALL = Ok (n + i + p) /\
  (forall t, exists r, srange1 chk s t = Ok r /\ faces1 r = [region (n, i, p) t]) /\
  (exists R, srange1 chk s RALL = Ok R /\
     forall q, in_box (faces1 R) q <->
       exists! t, part t /\ exists r, srange1 chk s t = Ok r /\ in_box (faces1 r) q).
Proof. exact (@regions_D1 chk n i p). Qed.
Print Assumptions C01_regions_tile_D1.

Example C01_regions_tile_D1_ex :
  dim_fits (2, 5, 3) /\ srange1 true (mk_sizeT1 2 5 3) RALL = Ok (mkRange1 (-2) 10).
Proof. split; [unfold dim_fits; lia | reflexivity]. Qed.

Theorem C01_regions_tile_D2 chk n0 i0 p0 n1 i1 p1 :
  dim_fits (n0, i0, p0) -> dim_fits (n1, i1, p1) ->
  let s := mk_sizeT2 n0 i0 p0 n1 i1 p1 in
  (forall d n i p, (d = 0 /\ (n, i, p) = (n0, i0, p0)) \/ (d = 1 /\ (n, i, p) = (n1, i1, p1)) ->
     (forall t fl,
        sbegin2 chk s d t = Ok (fst (region (n, i, p) t)) /\
        send2 chk s d t = Ok (snd (region (n, i, p) t)) /\
        slast2 chk s d t = Ok (snd (region (n, i, p) t) - 1) /\
        sbound2 chk s d t fl = Ok (edge (region (n, i, p) t) fl)) /\
     ssize2 chk s d RN = Ok n /\ ssize2 chk s d RIN = Ok i /\
     ssize2 chk s d RP = Ok p /\ ssize2 chk s d RALL = Ok (n + i + p)) /\
  (forall t0 t1, exists r, srange2 chk s t0 t1 = Ok r /\
     faces2 r = [region (n0, i0, p0) t0; region (n1, i1, p1) t1]) /\
  (exists R, srange2 chk s RALL RALL = Ok R /\
     forall q, in_box (faces2 R) q <->
       exists! ts : ra * ra, part (fst ts) /\ part (snd ts) /\
         exists r, srange2 chk s (fst ts) (snd ts) = Ok r /\ in_box (faces2 r) q).
Proof. exact (@regions_D2 chk n0 i0 p0 n1 i1 p1). Qed.
Print Assumptions C01_regions_tile_D2.

Example C01_regions_tile_D2_ex :
  dim_fits (2, 5, 3) /\ dim_fits (0, 4, 1) /\
  srange2 true (mk_sizeT2 2 5 3 0 4 1) RN RP = Ok (mkRange2 (-2, 4) (2, 1)).
Proof. repeat split; try lia. Qed.

Theorem C01_regions_tile_D3 chk n0 i0 p0 n1 i1 p1 n2 i2 p2 :
  dim_fits (n0, i0, p0) -> dim_fits (n1, i1, p1) -> dim_fits (n2, i2, p2) ->
  let s := mk_sizeT3 n0 i0 p0 n1 i1 p1 n2 i2 p2 in
  (forall d n i p, (d = 0 /\ (n, i, p) = (n0, i0, p0)) \/ (d = 1 /\ (n, i, p) = (n1, i1, p1)) \/
                   (d = 2 /\ (n, i, p) = (n2, i2, p2)) ->
     (forall t fl,
        sbegin3 chk s d t = Ok (fst (region (n, i, p) t)) /\
        send3 chk s d t = Ok (snd (region (n, i, p) t)) /\
        slast3 chk s d t = Ok (snd (region (n, i, p) t) - 1) /\
        sbound3 chk s d t fl = Ok (edge (region (n, i, p) t) fl)) /\
     ssize3 chk s d RN = Ok n /\ ssize3 chk s d RIN = Ok i /\
     ssize3 chk s d RP = Ok p /\ ssize3 chk s d RALL = Ok (n + i + p)) /\
  (forall t0 t1 t2, exists r, srange3 chk s t0 t1 t2 = Ok r /\
     faces3 r = [region (n0, i0, p0) t0; region (n1, i1, p1) t1; region (n2, i2, p2) t2]) /\
  (exists R, srange3 chk s RALL RALL RALL = Ok R /\
     forall q, in_box (faces3 R) q <->
       exists! ts : ra * ra * ra, part (fst (fst ts)) /\ part (snd (fst ts)) /\ part (snd ts) /\
         exists r, srange3 chk s (fst (fst ts)) (snd (fst ts)) (snd ts) = Ok r /\ in_box (faces3 r) q).
Proof. exact (@regions_D3 chk n0 i0 p0 n1 i1 p1 n2 i2 p2). Qed.
Print Assumptions C01_regions_tile_D3.

Example C01_regions_tile_D3_ex :
  dim_fits (2, 5, 3) /\ dim_fits (0, 4, 1) /\ dim_fits (1, 1, 1) /\
  srange3 true (mk_sizeT3 2 5 3 0 4 1 1 1 1) RN RP RIN = Ok (mkRange3 (mkI3 (-2) 4 0) (mkI3 2 1 1)).
Proof. repeat split; try lia. Qed.

Theorem C01_bad_dimension_D1 s r d t fl ii f0 :
  1 <= d ->
  rbegin1 true r d = Err (EDim d 0) /\ rsize1 true r d = Err (EDim d 0) /\
  rend1 true r d = Err (EDim d 0) /\ rlast1 true r d = Err (EDim d 0) /\
  sin1 true s d = Err (EDim d 0) /\ sn1 true s d = Err (EDim d 0) /\ sp1 true s d = Err (EDim d 0) /\
  sbegin1 true s d t = Err (EDim d 0) /\ send1 true s d t = Err (EDim d 0) /\
  ssize1 true s d t = Err (EDim d 0) /\ slast1 true s d t = Err (EDim d 0) /\
  sbound1 true s d t fl = Err (EDim d 0) /\ mirror1 true s d fl ii = Err (EDim d 0) /\
  periodic1 true s d f0 ii = Err (EDim d 0).
Proof. exact (@bad_dim_D1 s r d t fl ii f0). Qed.
Print Assumptions C01_bad_dimension_D1.

Theorem C01_bad_dimension_D2 s r d t fl ii f0 :
  2 <= d ->
  rbegin2 true r d = Err (EDim d 1) /\ rsize2 true r d = Err (EDim d 1) /\
  rend2 true r d = Err (EDim d 1) /\ rlast2 true r d = Err (EDim d 1) /\
  sin2 true s d = Err (EDim d 1) /\ sn2 true s d = Err (EDim d 1) /\ sp2 true s d = Err (EDim d 1) /\
  sbegin2 true s d t = Err (EDim d 1) /\ send2 true s d t = Err (EDim d 1) /\
  ssize2 true s d t = Err (EDim d 1) /\ slast2 true s d t = Err (EDim d 1) /\
  sbound2 true s d t fl = Err (EDim d 1) /\ mirror2 true s d fl ii = Err (EDim d 1) /\
  periodic2 true s d f0 ii = Err (EDim d 1).
Proof. exact (@bad_dim_D2 s r d t fl ii f0). Qed.
Print Assumptions C01_bad_dimension_D2.

Theorem C01_bad_dimension_D3 s r d t fl ii f0 :
  3 <= d ->
  rbegin3 true r d = Err (EDim d 2) /\ rsize3 true r d = Err (EDim d 2) /\
  rend3 true r d = Err (EDim d 2) /\ rlast3 true r d = Err (EDim d 2) /\
  sin3 true s d = Err (EDim d 2) /\ sn3 true s d = Err (EDim d 2) /\ sp3 true s d = Err (EDim d 2) /\
  sbegin3 true s d t = Err (EDim d 2) /\ send3 true s d t = Err (EDim d 2) /\
  ssize3 true s d t = Err (EDim d 2) /\ slast3 true s d t = Err (EDim d 2) /\
  sbound3 true s d t fl = Err (EDim d 2) /\ mirror3 true s d fl ii = Err (EDim d 2) /\
  periodic3 true s d f0 ii = Err (EDim d 2).
Proof. exact (@bad_dim_D3 s r d t fl ii f0). Qed.
Print Assumptions C01_bad_dimension_D3.

Example C01_bad_dimension_ex : 3 <= 7 /\ ssize3 true (mk_sizeT3 2 5 3 0 4 1 1 1 1) 7 RALL = Err (EDim 7 2).
Proof. split; [lia | reflexivity]. Qed.

(** ** C02: is_overlap *)

Theorem C02_is_overlap_iff_D1 chk a b :
  box_fits (faces1 a) -> box_fits (faces1 b) ->
  box_nonempty (faces1 a) -> box_nonempty (faces1 b) ->
  exists v, is_overlap1 chk a b = Ok v /\ is_overlap1 chk b a = Ok v /\
    (v = true <-> exists q, in_box (faces1 a) q /\ in_box (faces1 b) q).
Proof. exact (@overlap_iff_D1 chk a b). Qed.
Print Assumptions C02_is_overlap_iff_D1.

Theorem C02_is_overlap_iff_D2 chk a b :
  box_fits (faces2 a) -> box_fits (faces2 b) ->
  box_nonempty (faces2 a) -> box_nonempty (faces2 b) ->
  exists v, is_overlap2 chk a b = Ok v /\ is_overlap2 chk b a = Ok v /\
    (v = true <-> exists q, in_box (faces2 a) q /\ in_box (faces2 b) q).
Proof. exact (@overlap_iff_D2 chk a b). Qed.
Print Assumptions C02_is_overlap_iff_D2.

Theorem C02_is_overlap_iff_D3 chk a b :
  box_fits (faces3 a) -> box_fits (faces3 b) ->
  box_nonempty (faces3 a) -> box_nonempty (faces3 b) ->
  exists v, is_overlap3 chk a b = Ok v /\ is_overlap3 chk b a = Ok v /\
    (v = true <-> exists q, in_box (faces3 a) q /\ in_box (faces3 b) q).
Proof. exact (@overlap_iff_D3 chk a b). Qed.
Print Assumptions C02_is_overlap_iff_D3.

Example C02_is_overlap_ex :
  let a := mkRange3 (mkI3 (-2) 0 5) (mkI3 7 3 2) in
  let b := mkRange3 (mkI3 4 2 (-1)) (mkI3 9 9 7) in
  box_fits (faces3 a) /\ box_fits (faces3 b) /\ box_nonempty (faces3 a) /\ box_nonempty (faces3 b) /\
  is_overlap3 true a b = Ok true.
Proof. cbv zeta. repeat match goal with |- _ /\ _ => split end; try reflexivity; fits_tac. Qed.

(** The guard "non-empty" is needed: an empty box strictly inside another one
    is reported as overlapping. *)
Theorem C02_is_overlap_iff_refuted :
  exists a b : rangeT1,
    box_fits (faces1 a) /\ box_fits (faces1 b) /\ is_overlap1 true a b = Ok true /\
    ~ exists q, in_box (faces1 a) q /\ in_box (faces1 b) q.
Proof. exact empty_overlap_witness. Qed.
Print Assumptions C02_is_overlap_iff_refuted.

(** ** C03: overlap *)

Theorem C03_overlap_exact_D1 chk a b :
  box_fits (faces1 a) -> box_fits (faces1 b) ->
  box_nonempty (faces1 a) -> box_nonempty (faces1 b) ->
  ((exists q, in_box (faces1 a) q /\ in_box (faces1 b) q) ->
   exists r, overlap1 chk a b = Ok r /\
     (forall q, in_box (faces1 r) q <-> in_box (faces1 a) q /\ in_box (faces1 b) q)) /\
  (~ (exists q, in_box (faces1 a) q /\ in_box (faces1 b) q) ->
   overlap1 true a b = Err EOverlapNotFound).
Proof. exact (@overlap_exact_D1 chk a b). Qed.
Print Assumptions C03_overlap_exact_D1.

Theorem C03_overlap_exact_D2 chk a b :
  box_fits (faces2 a) -> box_fits (faces2 b) ->
  box_nonempty (faces2 a) -> box_nonempty (faces2 b) ->
  ((exists q, in_box (faces2 a) q /\ in_box (faces2 b) q) ->
   exists r, overlap2 chk a b = Ok r /\
     (forall q, in_box (faces2 r) q <-> in_box (faces2 a) q /\ in_box (faces2 b) q)) /\
  (~ (exists q, in_box (faces2 a) q /\ in_box (faces2 b) q) ->
   overlap2 true a b = Err EOverlapNotFound).
Proof. exact (@overlap_exact_D2 chk a b). Qed.
Print Assumptions C03_overlap_exact_D2.

Theorem C03_overlap_exact_D3 chk a b :
  box_fits (faces3 a) -> box_fits (faces3 b) ->
  box_nonempty (faces3 a) -> box_nonempty (faces3 b) ->
  ((exists q, in_box (faces3 a) q /\ in_box (faces3 b) q) ->
   exists r, overlap3 chk a b = Ok r /\
     (forall q, in_box (faces3 r) q <-> in_box (faces3 a) q /\ in_box (faces3 b) q)) /\
  (~ (exists q, in_box (faces3 a) q /\ in_box (faces3 b) q) ->
   overlap3 true a b = Err EOverlapNotFound).
Proof. exact (@overlap_exact_D3 chk a b). Qed.
Print Assumptions C03_overlap_exact_D3.

Theorem C03_overlap_throws_iff :
  (forall a b, overlap1 true a b = Err EOverlapNotFound <-> is_overlap1 true a b = Ok false) /\
  (forall a b, overlap2 true a b = Err EOverlapNotFound <-> is_overlap2 true a b = Ok false) /\
  (forall a b, overlap3 true a b = Err EOverlapNotFound <-> is_overlap3 true a b = Ok false).
Proof. exact (@overlap_throws_iff). Qed.
Print Assumptions C03_overlap_throws_iff.

Theorem C03_unchecked_never_throws_D1 a b e : overlap1 false a b <> Err e.
Proof. exact (@unchecked_no_throw_D1 a b e). Qed.
Print Assumptions C03_unchecked_never_throws_D1.

Theorem C03_unchecked_never_throws_D2 a b e : overlap2 false a b <> Err e.
Proof. exact (@unchecked_no_throw_D2 a b e). Qed.
Print Assumptions C03_unchecked_never_throws_D2.

Theorem C03_unchecked_never_throws_D3 a b e : overlap3 false a b <> Err e.
Proof. exact (@unchecked_no_throw_D3 a b e). Qed.
Print Assumptions C03_unchecked_never_throws_D3.

Example C03_overlap_ex :
  overlap2 true (mkRange2 (-2, 0) (7, 3)) (mkRange2 (4, 2) (9, 9)) = Ok (mkRange2 (4, 2) (1, 1)) /\
  overlap2 true (mkRange2 (-2, 0) (7, 3)) (mkRange2 (5, 2) (9, 9)) = Err EOverlapNotFound.
Proof. split; reflexivity. Qed.

(** ** C04: cut_head, cut_tail, tran *)

Theorem C04_moves_D1 r i :
  (box_fits (shift_box [i] (faces1 r)) ->
   exists r', tran1 r i = Ok r' /\ faces1 r' = shift_box [i] (faces1 r)) /\
  (box_fits (raise_low [i] (faces1 r)) ->
   exists r', cut_head1 r i = Ok r' /\ faces1 r' = raise_low [i] (faces1 r)) /\
  (box_fits (lower_high [i] (faces1 r)) ->
   exists r', cut_tail1 r i = Ok r' /\ faces1 r' = lower_high [i] (faces1 r)).
Proof. exact (@moves_D1 r i). Qed.
Print Assumptions C04_moves_D1.

Theorem C04_moves_D2 r i j :
  (box_fits (shift_box [i; j] (faces2 r)) ->
   exists r', tran2 r i j = Ok r' /\ faces2 r' = shift_box [i; j] (faces2 r)) /\
  (box_fits (raise_low [i; j] (faces2 r)) ->
   exists r', cut_head2 r i j = Ok r' /\ faces2 r' = raise_low [i; j] (faces2 r)) /\
  (box_fits (lower_high [i; j] (faces2 r)) ->
   exists r', cut_tail2 r i j = Ok r' /\ faces2 r' = lower_high [i; j] (faces2 r)).
Proof. exact (@moves_D2 r i j). Qed.
Print Assumptions C04_moves_D2.

Theorem C04_moves_D3 r i j k :
  (box_fits (shift_box [i; j; k] (faces3 r)) ->
   exists r', tran3 r i j k = Ok r' /\ faces3 r' = shift_box [i; j; k] (faces3 r)) /\
  (box_fits (raise_low [i; j; k] (faces3 r)) ->
   exists r', cut_head3 r i j k = Ok r' /\ faces3 r' = raise_low [i; j; k] (faces3 r)) /\
  (box_fits (lower_high [i; j; k] (faces3 r)) ->
   exists r', cut_tail3 r i j k = Ok r' /\ faces3 r' = lower_high [i; j; k] (faces3 r)).
Proof. exact (@moves_D3 r i j k). Qed.
Print Assumptions C04_moves_D3.

(** What the moved faces mean for points, in any number of dimensions. *)
Theorem C04_shift_points v B q :
  length v = length B -> length q = length B ->
  (in_box (shift_box v B) q <-> in_box B (vsub q v)).
Proof. exact (@shift_box_points v B q). Qed.
Print Assumptions C04_shift_points.

Theorem C04_undo_D1 r r' i :
  box_fits (faces1 r) ->
  (tran1 r i = Ok r' -> tran1 r' (- i) = Ok r) /\
  (cut_head1 r i = Ok r' -> cut_head1 r' (- i) = Ok r) /\
  (cut_tail1 r i = Ok r' -> cut_tail1 r' (- i) = Ok r).
Proof. exact (@undo_D1 r r' i). Qed.
Print Assumptions C04_undo_D1.

Theorem C04_undo_D2 r r' i j :
  box_fits (faces2 r) ->
  (tran2 r i j = Ok r' -> tran2 r' (- i) (- j) = Ok r) /\
  (cut_head2 r i j = Ok r' -> cut_head2 r' (- i) (- j) = Ok r) /\
  (cut_tail2 r i j = Ok r' -> cut_tail2 r' (- i) (- j) = Ok r).
Proof. exact (@undo_D2 r r' i j). Qed.
Print Assumptions C04_undo_D2.

Theorem C04_undo_D3 r r' i j k :
  box_fits (faces3 r) ->
  (tran3 r i j k = Ok r' -> tran3 r' (- i) (- j) (- k) = Ok r) /\
  (cut_head3 r i j k = Ok r' -> cut_head3 r' (- i) (- j) (- k) = Ok r) /\
  (cut_tail3 r i j k = Ok r' -> cut_tail3 r' (- i) (- j) (- k) = Ok r).
Proof. exact (@undo_D3 r r' i j k). Qed.
Print Assumptions C04_undo_D3.

Theorem C04_add_up_D1 r r1 r2 i i' :
  (tran1 r i = Ok r1 -> tran1 r1 i' = Ok r2 -> tran1 r (i + i') = Ok r2) /\
  (cut_head1 r i = Ok r1 -> cut_head1 r1 i' = Ok r2 -> cut_head1 r (i + i') = Ok r2) /\
  (cut_tail1 r i = Ok r1 -> cut_tail1 r1 i' = Ok r2 -> cut_tail1 r (i + i') = Ok r2).
Proof. exact (@add_up_D1 r r1 r2 i i'). Qed.
Print Assumptions C04_add_up_D1.

Theorem C04_add_up_D2 r r1 r2 i j i' j' :
  (tran2 r i j = Ok r1 -> tran2 r1 i' j' = Ok r2 -> tran2 r (i + i') (j + j') = Ok r2) /\
  (cut_head2 r i j = Ok r1 -> cut_head2 r1 i' j' = Ok r2 -> cut_head2 r (i + i') (j + j') = Ok r2) /\
  (cut_tail2 r i j = Ok r1 -> cut_tail2 r1 i' j' = Ok r2 -> cut_tail2 r (i + i') (j + j') = Ok r2).
Proof. exact (@add_up_D2 r r1 r2 i j i' j'). Qed.
Print Assumptions C04_add_up_D2.

Theorem C04_add_up_D3 r r1 r2 i j k i' j' k' :
  (tran3 r i j k = Ok r1 -> tran3 r1 i' j' k' = Ok r2 ->
   tran3 r (i + i') (j + j') (k + k') = Ok r2) /\
  (cut_head3 r i j k = Ok r1 -> cut_head3 r1 i' j' k' = Ok r2 ->
   cut_head3 r (i + i') (j + j') (k + k') = Ok r2) /\
  (cut_tail3 r i j k = Ok r1 -> cut_tail3 r1 i' j' k' = Ok r2 ->
   cut_tail3 r (i + i') (j + j') (k + k') = Ok r2).
Proof. exact (@add_up_D3 r r1 r2 i j k i' j' k'). Qed.
Print Assumptions C04_add_up_D3.

Example C04_moves_ex :
  let r := mkRange2 (-2, 0) (7, 3) in
  box_fits (faces2 r) /\ box_fits (raise_low [-4; 2] (faces2 r)) /\
  cut_head2 r (-4) 2 = Ok (mkRange2 (-6, 2) (11, 1)) /\
  cut_head2 (mkRange2 (-6, 2) (11, 1)) (- -4) (-2) = Ok r.
Proof. cbv zeta. repeat match goal with |- _ /\ _ => split end; try reflexivity; fits_tac. Qed.

(** ** C05: check_range *)

Theorem C05_check_range_D1 r l ii off :
  let f := (r1_begin r, r1_begin r + r1_size r) in
  in_int (fst f) -> in_int (snd f) -> margin f -> 0 <= off <= 1 ->
  check_range1 true r 0 l ii off =
  if (fst f <=? ii + off) && (ii + off <? snd f + loc_val l) then Ok tt
  else Err (range_error l 0 ii off f).
Proof. exact (@check_range1_eq r l ii off). Qed.
Print Assumptions C05_check_range_D1.

Theorem C05_check_range_D2 r d l ii off :
  0 <= d < 2 ->
  let f := nth (Z.to_nat d) (faces2 r) (0, 0) in
  in_int (fst f) -> in_int (snd f) -> margin f -> 0 <= off <= 1 ->
  check_range2 true r d l ii off =
  if (fst f <=? ii + off) && (ii + off <? snd f + loc_val l) then Ok tt
  else Err (range_error l d ii off f).
Proof. exact (@check_range2_eq r d l ii off). Qed.
Print Assumptions C05_check_range_D2.

Theorem C05_check_range_D3 r d l ii off :
  0 <= d < 3 ->
  let f := nth (Z.to_nat d) (faces3 r) (0, 0) in
  in_int (fst f) -> in_int (snd f) -> margin f -> 0 <= off <= 1 ->
  check_range3 true r d l ii off =
  if (fst f <=? ii + off) && (ii + off <? snd f + loc_val l) then Ok tt
  else Err (range_error l d ii off f).
Proof. exact (@check_range3_eq r d l ii off). Qed.
Print Assumptions C05_check_range_D3.

Theorem C05_unchecked_never_throws d l ii off :
  (forall r, check_range1 false r d l ii off = Ok tt) /\
  (forall r, check_range2 false r d l ii off = Ok tt) /\
  (forall r, check_range3 false r d l ii off = Ok tt).
Proof. exact (@check_range_unchecked d l ii off). Qed.
Print Assumptions C05_unchecked_never_throws.

Example C05_check_range_ex :
  margin (-2, 5) /\
  check_range1 true (mkRange1 (-2) 7) 0 half 5 0 = Ok tt /\
  check_range1 true (mkRange1 (-2) 7) 0 half (-3) 1 = Ok tt /\
  check_range1 true (mkRange1 (-2) 7) 0 half 5 1 = Err (ERangeH 0 5 1 (-2) 4 5).
Proof. repeat split; cbn; unfold in_int; lia. Qed.

(** ** C06: mirror *)

Theorem C06_mirror_D1 chk n i p :
  dim_fits (n, i, p) -> in_int (2 * (i - 1)) ->
  reflects (n, i, p) (mirror1 chk (mk_sizeT1 n i p) 0).
Proof. exact (@mirror_D1 chk n i p). Qed.
Print Assumptions C06_mirror_D1.

Theorem C06_mirror_D2 chk n0 i0 p0 n1 i1 p1 d n i p :
  dim_fits (n0, i0, p0) -> dim_fits (n1, i1, p1) ->
  (d = 0 /\ (n, i, p) = (n0, i0, p0)) \/ (d = 1 /\ (n, i, p) = (n1, i1, p1)) ->
  in_int (2 * (i - 1)) ->
  reflects (n, i, p) (mirror2 chk (mk_sizeT2 n0 i0 p0 n1 i1 p1) d).
Proof. exact (@mirror_D2 chk n0 i0 p0 n1 i1 p1 d n i p). Qed.
Print Assumptions C06_mirror_D2.

Theorem C06_mirror_D3 chk n0 i0 p0 n1 i1 p1 n2 i2 p2 d n i p :
  dim_fits (n0, i0, p0) -> dim_fits (n1, i1, p1) -> dim_fits (n2, i2, p2) ->
  (d = 0 /\ (n, i, p) = (n0, i0, p0)) \/ (d = 1 /\ (n, i, p) = (n1, i1, p1)) \/
  (d = 2 /\ (n, i, p) = (n2, i2, p2)) ->
  in_int (2 * (i - 1)) ->
  reflects (n, i, p) (mirror3 chk (mk_sizeT3 n0 i0 p0 n1 i1 p1 n2 i2 p2) d).
Proof. exact (@mirror_D3 chk n0 i0 p0 n1 i1 p1 n2 i2 p2 d n i p). Qed.
Print Assumptions C06_mirror_D3.

Example C06_mirror_ex :
  dim_fits (3, 5, 4) /\ in_int (2 * (5 - 1)) /\
  mirror2 true (mk_sizeT2 3 5 4 1 2 1) 0 BN (-3) = Ok 3 /\
  mirror2 true (mk_sizeT2 3 5 4 1 2 1) 0 BP 8 = Ok 0.
Proof. repeat split; unfold in_int; lia. Qed.

(** ** C07: periodic *)

Theorem C07_periodic_D1 chk n i p : dim_fits (n, i, p) -> translates (n, i, p) (periodic1 chk (mk_sizeT1 n i p) 0).
Proof. exact (@periodic_D1 chk n i p). Qed.
Print Assumptions C07_periodic_D1.

Theorem C07_periodic_D2 chk n0 i0 p0 n1 i1 p1 d n i p :
  dim_fits (n0, i0, p0) -> dim_fits (n1, i1, p1) ->
  (d = 0 /\ (n, i, p) = (n0, i0, p0)) \/ (d = 1 /\ (n, i, p) = (n1, i1, p1)) ->
  translates (n, i, p) (periodic2 chk (mk_sizeT2 n0 i0 p0 n1 i1 p1) d).
Proof. exact (@periodic_D2 chk n0 i0 p0 n1 i1 p1 d n i p). Qed.
Print Assumptions C07_periodic_D2.

Theorem C07_periodic_D3 chk n0 i0 p0 n1 i1 p1 n2 i2 p2 d n i p :
  dim_fits (n0, i0, p0) -> dim_fits (n1, i1, p1) -> dim_fits (n2, i2, p2) ->
  (d = 0 /\ (n, i, p) = (n0, i0, p0)) \/ (d = 1 /\ (n, i, p) = (n1, i1, p1)) \/
  (d = 2 /\ (n, i, p) = (n2, i2, p2)) ->
  translates (n, i, p) (periodic3 chk (mk_sizeT3 n0 i0 p0 n1 i1 p1 n2 i2 p2) d).
Proof. exact (@periodic_D3 chk n0 i0 p0 n1 i1 p1 n2 i2 p2 d n i p). Qed.
Print Assumptions C07_periodic_D3.

Example C07_periodic_ex :
  dim_fits (3, 5, 4) /\
  periodic2 true (mk_sizeT2 1 2 1 3 5 4) 1 FN (-3) = Ok 1 /\
  periodic2 true (mk_sizeT2 1 2 1 3 5 4) 1 FP 8 = Ok 4.
Proof. repeat split; unfold in_int; lia. Qed.

(** ** C08: flags and regions *)

Theorem C08_flag_region_conversions :
  (forall f, f_c (f_c f) = f) /\ f_c FN = FP /\ f_c FC = FC /\
  (forall r r', r_c r = Some r' -> r_c r' = Some r) /\ r_c RN = Some RP /\ r_c RIN = Some RIN /\
  (forall f, r_f (f_r f) = Some f) /\
  (forall r f, r_f r = Some f -> f_r f = r) /\
  (forall f, f_r_c f = f_r (f_c f)) /\ (forall f, r_c (f_r f) = Some (f_r_c f)) /\
  (forall r f, r_f_c r = Some f <-> r_f r = Some (f_c f)) /\
  (forall r, part r <-> exists f, r_f r = Some f) /\
  (forall f, fl_sign (f_c f) = - fl_sign f) /\
  (forall f, fl_sign f = match f_r f with RN => -1 | RIN => 0 | RP => 1 | RALL => 0 end) /\
  (forall f, fl_offset f = if 0 <? fl_sign f then 1 else 0).
Proof. exact (@flag_region_conversions). Qed.
Print Assumptions C08_flag_region_conversions.
