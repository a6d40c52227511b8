(** Properties C31 to C33: sizes, sampled blocks and extrema of zones.

    Reading guide (Spec_Tec.v).  [sampled max skip b e] are the indices b, b+skip, b+2*skip, ... below
    max-e; [samples_of z] how many there are in each direction.  [block_of z size mem] are the sampled
    elements of the user's array [mem], first direction fastest.  A [buffer] is a list of bytes,
    [None] for one never written.  [gather_real_size z] gives the fields the library computes:
    [r_max] (Real_Max), [r_rdim] (Real_Dim), [r_dim] (Dim), [r_noskip], [r_noexc].  [make_buf1 z r oom d] is the buffer made for the variable
    [d]; [oom]: the allocation fails.  Reading or writing outside an array is undefined ([UB]). *)

From Coq Require Import ZArith Ascii String List Bool Lia.
From Verif Require Import Base M_Bytes M_TecZone Spec_Loop Spec_Tec L_TecZone L_TecMin.
Import ListNotations.
Open Scope list_scope.
Open Scope Z_scope.

(** ** C31: sizes *)

(** An exception exactly for a bad direction; otherwise the sizes are the numbers of sampled
    indices. *)
Theorem C31_real_size z :
  all_dirs dir_ints z ->
  (some_dir dir_bad z -> exists m, gather_real_size z = Err m) /\
     (~ some_dir dir_bad z -> exists r,
     gather_real_size z = Ok r /\
     list3 (r_max r) = samples_of z /\ Forall (fun n => 1 <= n) (samples_of z) /\
     r_rdim r = not_one (samples_of z) /\ r_dim r = not_one (list3 (z_max z)) /\
     (r_noskip r = true <-> all_dirs (fun _ s _ _ => s = 1) z) /\
     (r_noexc r = true <-> all_dirs (fun _ _ b e => b = 0 /\ e = 0) z)).
Proof. exact (@gather_size z). Qed.
Print Assumptions C31_real_size.

(** The functions that return them: get_real_max counts the directions from the first one on,
    get_real_max_C from the last one of [DIM] directions back (as the indices of a C array do).  A
    direction there is not is undefined. *)
Theorem C31_getters z : all_dirs dir_ints z -> ~ some_dir dir_bad z ->
  (forall d, 0 <= d < 3 -> get_real_max z d = Ok (nth (Z.to_nat d) (samples_of z) 0)) /\
  (forall DIM d, 1 <= DIM <= 3 -> 0 <= d < DIM -> get_real_max_C z DIM d = Ok (nth (Z.to_nat (DIM - 1 - d)) (samples_of z) 0)) /\
  get_real_dim z = Ok (not_one (samples_of z)) /\
  (forall d, 3 <= d < UINT_MOD -> get_real_max z d = UB) /\
  (forall DIM d, 1 <= DIM <= 3 -> DIM <= d < UINT_MOD - 3 -> get_real_max_C z DIM d = UB).
Proof.
  intros HI HB. destruct (gather_size z HI) as [_ G]. destruct (G HB) as (r & E & EM & _ & ED & _).
  unfold get_real_max, get_real_max_C, get_real_dim. rewrite E. cbn [rbind]. rewrite ED, <- EM.
  assert (V : forall d, v3_get (r_max r) d = if (0 <=? d) && (d <? 3) then Ok (nth (Z.to_nat d) (list3 (r_max r)) 0) else UB).
  { intros d. unfold v3_get, list3. destruct (Z.eqb_spec d 0) as [->|]; [reflexivity|]. destruct (Z.eqb_spec d 1) as [->|]; [reflexivity|].
    destruct (Z.eqb_spec d 2) as [->|]; [reflexivity|]. destruct (Z.leb_spec 0 d); [|reflexivity]. destruct (Z.ltb_spec d 3); [lia|reflexivity]. }
  assert (In3 : forall d, 0 <= d < 3 -> v3_get (r_max r) d = Ok (nth (Z.to_nat d) (list3 (r_max r)) 0)).
  { intros d Hd. rewrite V. destruct (Z.leb_spec 0 d); [|lia]. destruct (Z.ltb_spec d 3); [reflexivity|lia]. }
  assert (Out3 : forall d, 3 <= d -> v3_get (r_max r) d = UB).
  { intros d Hd. rewrite V. destruct (Z.ltb_spec d 3); [lia|]. rewrite andb_false_r. reflexivity. }
  split; [exact In3|]. split; [|split; [reflexivity|split; [intros d Hd; apply Out3; lia|]]].
  - intros DIM d HD Hd. unfold uwrap. rewrite Z.mod_small by (change UINT_MOD with (2 ^ 32); lia). apply In3. lia.
  - intros DIM d HD Hd. apply Out3. unfold uwrap. replace (DIM - 1 - d) with (UINT_MOD + DIM - 1 - d + (-1) * UINT_MOD) by ring.
    rewrite Z.mod_add by discriminate. rewrite Z.mod_small by lia. lia.
Qed.
Print Assumptions C31_getters.

(** "Skip must be positive" is not enforced: a negative Skip is accepted and gives a
    negative size. *)
Definition zone_neg : zone :=
  mkZone "z"%string (-1) 0 (mk3 5 1 1) (mk3 (-1) 1 1) (mk3 0 0 0) (mk3 0 0 0) [] [] 0.
Theorem C31_negative_skip_refuted :
  exists z r, x0 (z_skip z) < 0 /\ gather_real_size z = Ok r /\ x0 (r_max r) < 0.
Proof. exists zone_neg. eexists. split; [|split; [vm_compute; reflexivity|]]; reflexivity. Qed.
Print Assumptions C31_negative_skip_refuted.

(** 7 points, every third, leaving 1 at the low and 2 at the high end: 1 and 4; 4 points, every second:
    0 and 2; 3 points, 2 cut: 1. *)
Definition zone_ex : zone :=
  mkZone "z"%string (-1) 0 (mk3 7 4 3) (mk3 3 2 1) (mk3 1 0 1) (mk3 2 0 1) [] [] 0.
Example C31_ex : all_dirs dir_ints zone_ex /\ ~ some_dir dir_bad zone_ex /\ samples_of zone_ex = [2; 2; 1].
Proof.
  split; [|split; [|reflexivity]].
  - unfold all_dirs, dir_ints, in_int. cbn. lia.
  - unfold some_dir, dir_bad. cbn. lia.
Qed.
Example C31_ex_bad : all_dirs dir_ints (mkZone "z"%string (-1) 0 (mk3 7 4 3) (mk3 3 2 1) (mk3 1 0 1) (mk3 2 0 2) [] [] 0) /\
  some_dir dir_bad (mkZone "z"%string (-1) 0 (mk3 7 4 3) (mk3 3 2 1) (mk3 1 0 1) (mk3 2 0 2) [] [] 0).
Proof.
  split.
  - unfold all_dirs, dir_ints, in_int. cbn. lia.
  - unfold some_dir, dir_bad. cbn. lia.
Qed.

(** ** C32: the block *)

(** On all three code paths, and without touching a byte outside the user's array or the
    buffer, the buffer holds the sampled block. *)
Theorem C32_block z r d mem oom :
  zone_fits z -> data_fits z d mem -> gather_real_size z = Ok r -> (r_noskip r && r_noexc r = false -> oom = false) ->
  exists buf, make_buf1 z r oom d = Ok buf /\
    firstn (length (block_of z (d_size d) mem)) buf = map Some (block_of z (d_size d) mem) /\
    Z.of_nat (length (block_of z (d_size d) mem)) = x0 (r_max r) * x1 (r_max r) * x2 (r_max r) * d_size d.
Proof. exact (@buffer_ok z r d mem oom). Qed.
Print Assumptions C32_block.

(** The block, element by element. *)
Theorem C32_element z size mem a b c :
  zone_fits z -> 0 < size -> org_count z * size <= Z.of_nat (length mem) ->
  0 <= a < Z.of_nat (length (sampled0 z)) -> 0 <= b < Z.of_nat (length (sampled1 z)) ->
  0 <= c < Z.of_nat (length (sampled2 z)) ->
  element size (block_of z size mem)
    (a + Z.of_nat (length (sampled0 z)) * (b + Z.of_nat (length (sampled1 z)) * c))
  = element size mem
      ((x0 (z_begin z) + a * x0 (z_skip z)) + x0 (z_max z) *
       ((x1 (z_begin z) + b * x1 (z_skip z)) + x1 (z_max z) * (x2 (z_begin z) + c * x2 (z_skip z)))).
Proof. exact (@block_point z size mem a b c). Qed.
Print Assumptions C32_element.

(** If the allocation fails an exception is thrown. *)
Theorem C32_no_memory z r d mem :
  zone_fits z -> data_fits z d mem -> gather_real_size z = Ok r -> r_noskip r && r_noexc r = false ->
  exists m, make_buf1 z r true d = Err (ETec m).
Proof. exact (@buffer_oom z r d mem). Qed.
Print Assumptions C32_no_memory.

Definition mem_ex : bytes := map (fun k => z2b (Z.of_nat k)) (seq 0 168).
Definition data_ex : tdata := mkData TEC_SHORTINT 2 (Some mem_ex).
Example C32_ex : zone_fits zone_ex /\ data_fits zone_ex data_ex mem_ex /\
  (exists r, gather_real_size zone_ex = Ok r /\ r_noskip r && r_noexc r = false) /\
  block_of zone_ex 2 mem_ex = map z2b [58; 59; 64; 65; 86; 87; 92; 93].
Proof.
  split; [|split; [|split]].
  - unfold zone_fits, all_dirs, dir_fits, org_count. cbn. lia.
  - unfold data_fits. split; [reflexivity|]. split; [reflexivity|]. split; vm_compute; congruence.
  - eexists. split; vm_compute; reflexivity.
  - vm_compute. reflexivity.
Qed.

(** ** C33: extrema *)

(** For data without NaN. *)
Theorem C33_extrema type n buf blk :
  block type n blk -> holds buf blk -> (forall i, 0 <= i < n -> value type blk i <> NaN) ->
  exists mn mx, minmax type buf n = Ok (mn, mx) /\ extrema type n blk mn mx.
Proof. exact (@minmax_ok type n buf blk). Qed.
Print Assumptions C33_extrema.

(** With a NaN the recorded maximum can be below an element: 3, 3, 5, NaN gives
    the maximum 3. *)
Definition block_nan : bytes := map (fun x => z2b x)
  [0;0;64;64; 0;0;64;64; 0;0;160;64; 0;0;192;127].
Theorem C33_nan_refuted :
  exists blk mn mx, block TEC_FLOAT 4 blk /\ minmax TEC_FLOAT (map Some blk) 4 = Ok (mn, mx) /\
    num_lt (num64 mx) (value TEC_FLOAT blk 2) = true.
Proof.
  exists block_nan. eexists _, _. split; [|split; [vm_compute; reflexivity|vm_compute; reflexivity]].
  unfold block, TEC_FLOAT. change (length block_nan) with 16%nat. cbn [width]. lia.
Qed.
Print Assumptions C33_nan_refuted.

(** -2, 7, 1 as short *)
Example C33_ex : block TEC_SHORTINT 3 (map z2b [254; 255; 7; 0; 1; 0]) /\
  holds (map Some (map z2b [254; 255; 7; 0; 1; 0])) (map z2b [254; 255; 7; 0; 1; 0]) /\
  forall i, 0 <= i < 3 -> value TEC_SHORTINT (map z2b [254; 255; 7; 0; 1; 0]) i <> NaN.
Proof. split; [unfold block, TEC_SHORTINT; cbn [width map length]; lia|]. split; [reflexivity|]. intros i Hi. discriminate. Qed.
