(** Sizes and sampling of zones. *)

From Coq Require Import ZArith Ascii String List Bool Lia.
From Verif Require Import Base M_Bytes M_TecZone Spec_Loop Spec_Tec L_Base L_Loop.
Import ListNotations.
Open Scope list_scope.
Open Scope Z_scope.

(** ** Sampled indices *)

(** Number of steps of [s] below [n]: n/s rounded up. *)
Definition ceil (n s : Z) : Z := (n + s - 1) / s.

Lemma ceil_spec n s r : 0 < s -> (r - 1) * s < n <= r * s -> ceil n s = r.
Proof.
  intros Hs H. unfold ceil. symmetry. apply Z.div_unique with (n + s - 1 - r * s); nia.
Qed.

Lemma ceil_bounds n s : 0 < s -> (ceil n s - 1) * s < n <= ceil n s * s.
Proof.
  intros Hs. unfold ceil. pose proof (Z.div_mod (n + s - 1) s ltac:(lia)) as H.
  pose proof (Z.mod_pos_bound (n + s - 1) s Hs). set (q := (n + s - 1) / s) in *. nia.
Qed.

Lemma ceil_pos n s : 0 < s -> 0 < n -> 1 <= ceil n s.
Proof. intros Hs Hn. pose proof (ceil_bounds n s Hs). nia. Qed.

Lemma ceil_nonneg n s : 0 < s -> 0 <= n -> 0 <= ceil n s.
Proof. intros Hs Hn. pose proof (ceil_bounds n s Hs). nia. Qed.

Lemma ceil_le n s : 0 < s -> 0 <= n -> ceil n s <= n.
Proof. intros Hs Hn. pose proof (ceil_bounds n s Hs). nia. Qed.

Lemma filter_zrange s b n : 0 < s -> 0 <= n ->
  filter (fun i => (i - b) mod s =? 0) (zrange b (b + n)) = map (fun t => b + t * s) (zrange 0 (ceil n s)).
Proof.
  intros Hs Hn. revert n Hn. apply (natlike_ind (fun n => _ = _)).
  - rewrite (ceil_spec 0 s 0) by lia. rewrite !zrange_nil by lia. reflexivity.
  - intros n Hn IH. unfold Z.succ. rewrite (zrange_snoc b) by lia.
    replace (b + (n + 1) - 1) with (b + n) by lia. rewrite filter_app, IH. cbn [filter].
    replace (b + n - b) with n by lia. pose proof (ceil_bounds n s Hs) as Hc.
    destruct (n mod s =? 0) eqn:E; zcmp.
    + assert (n = ceil n s * s) as Hns.
      { apply Z.mod_divide in E; [|lia]. destruct E as [q Eq].
        rewrite (ceil_spec n s q) by nia. exact Eq. }
      rewrite (ceil_spec (n + 1) s (ceil n s + 1)) by nia.
      rewrite (zrange_snoc 0 (ceil n s + 1)) by (pose proof (ceil_nonneg n s Hs Hn); lia).
      replace (ceil n s + 1 - 1) with (ceil n s) by lia. rewrite map_app. cbn [map]. do 2 f_equal. lia.
    + assert (n <> ceil n s * s) as Hns.
      { intros C. apply E. rewrite C. apply Z.mod_mul. lia. }
      rewrite (ceil_spec (n + 1) s (ceil n s)) by nia. now rewrite app_nil_r.
Qed.

Lemma sampled_eq max s b e : 0 < s -> b + e <= max ->
  sampled max s b e = map (fun t => b + t * s) (zrange 0 (ceil (max - b - e) s)).
Proof.
  intros Hs H. unfold sampled. replace (max - e) with (b + (max - b - e)) by lia.
  apply filter_zrange; lia.
Qed.

Lemma samples_eq max s b e : 0 < s -> b + e <= max -> samples max s b e = ceil (max - b - e) s.
Proof.
  intros Hs H. unfold samples. rewrite sampled_eq, map_length, length_zrange by assumption.
  pose proof (ceil_nonneg (max - b - e) s Hs). lia.
Qed.

(** ** gather_real_size *)

Lemma gather_check_ok name ix max s b e :
  dir_ints max s b e -> ~ dir_bad max s b e -> gather_check name ix max s b e = Ok tt.
Proof.
  unfold dir_ints, dir_bad, gather_check. intros H Hb.
  destruct (max =? 0) eqn:E1; zcmp; [tauto|]. destruct (s =? 0) eqn:E2; zcmp; [tauto|].
  arith. destruct (max <=? b + e) eqn:E3; zcmp; [tauto|]. reflexivity.
Qed.

Lemma gather_check_bad name ix max s b e :
  dir_ints max s b e -> dir_bad max s b e -> exists m, gather_check name ix max s b e = Err m.
Proof.
  unfold dir_ints, dir_bad, gather_check. intros H Hb.
  destruct (max =? 0) eqn:E1; zcmp; [eauto|]. destruct (s =? 0) eqn:E2; zcmp; [eauto|].
  arith. destruct (max <=? b + e) eqn:E3; zcmp; [eauto|]. lia.
Qed.

Lemma gather_real_eq max s b e :
  dir_ints max s b e -> ~ dir_bad max s b e -> gather_real max s b e = Ok (samples max s b e).
Proof.
  unfold dir_ints, dir_bad, gather_real. intros H Hb.
  rewrite samples_eq by lia. arith. set (n := max - b - e) in *.
  unfold idiv, irem. destruct (s =? 0) eqn:E; zcmp; [lia|].
  rewrite Z.quot_div_nonneg by lia.
  pose proof (Z.div_mod n s ltac:(lia)) as Hd. pose proof (Z.mod_pos_bound n s ltac:(lia)) as Hm.
  assert (0 <= n / s <= n) by (split; [apply Z.div_pos; lia|apply Z.div_le_upper_bound; nia]).
  ckgo. rewrite Z.rem_mod_nonneg by lia. destruct (n mod s =? 0) eqn:E2; zcmp.
  - f_equal. symmetry. apply ceil_spec; nia.
  - arith. f_equal. symmetry. apply ceil_spec; nia.
Qed.

Lemma bad_dec max s b e : dir_bad max s b e \/ ~ dir_bad max s b e.
Proof. unfold dir_bad. lia. Qed.

Lemma samples_pos max s b e : dir_ints max s b e -> ~ dir_bad max s b e -> 1 <= samples max s b e.
Proof.
  unfold dir_ints, dir_bad. intros H Hb. rewrite samples_eq by lia. apply ceil_pos; lia.
Qed.

Lemma minus1_ge m : 0 <= minus1 m <= 1.
Proof. unfold minus1. destruct (m =? 1); lia. Qed.

Lemma not_one3 a b c : not_one [a; b; c] = 3 - minus1 c - minus1 b - minus1 a.
Proof. unfold not_one, minus1. cbn [filter]. destruct (a =? 1), (b =? 1), (c =? 1); reflexivity. Qed.

Lemma gather_size z :
  all_dirs dir_ints z ->
  (some_dir dir_bad z -> exists m, gather_real_size z = Err m) /\
     (~ some_dir dir_bad z -> exists r,
     gather_real_size z = Ok r /\
     list3 (r_max r) = samples_of z /\ Forall (fun n => 1 <= n) (samples_of z) /\
     r_rdim r = not_one (samples_of z) /\ r_dim r = not_one (list3 (z_max z)) /\
     (r_noskip r = true <-> all_dirs (fun _ s _ _ => s = 1) z) /\
     (r_noexc r = true <-> all_dirs (fun _ _ b e => b = 0 /\ e = 0) z)).
Proof.
  intros (H0 & H1 & H2). split.
  - intros Hb. unfold gather_real_size, some_dir in *.
    destruct (bad_dec (x0 (z_max z)) (x0 (z_skip z)) (x0 (z_begin z)) (x0 (z_end z))) as [B|B].
    { destruct (gather_check_bad (z_name z) "I" _ _ _ _ H0 B) as [m E]. rewrite E. cbn [rbind]. eauto. }
    rewrite gather_check_ok by assumption. cbn [rbind].
    destruct (bad_dec (x1 (z_max z)) (x1 (z_skip z)) (x1 (z_begin z)) (x1 (z_end z))) as [B1|B1].
    { destruct (gather_check_bad (z_name z) "J" _ _ _ _ H1 B1) as [m E]. rewrite E. cbn [rbind]. eauto. }
    rewrite gather_check_ok by assumption. cbn [rbind].
    assert (B2 : dir_bad (x2 (z_max z)) (x2 (z_skip z)) (x2 (z_begin z)) (x2 (z_end z))) by tauto.
    destruct (gather_check_bad (z_name z) "K" _ _ _ _ H2 B2) as [m E]. rewrite E. cbn [rbind]. eauto.
  - intros Hb. unfold some_dir in Hb. apply Decidable.not_or in Hb. destruct Hb as [B0 Hb].
    apply Decidable.not_or in Hb. destruct Hb as [B1 B2].
    unfold gather_real_size. rewrite !gather_check_ok by assumption. cbn [rbind].
    rewrite !gather_real_eq by assumption. cbn [rbind]. eexists. split; [reflexivity|].
    cbn [r_max r_rdim r_dim r_noskip r_noexc].
    unfold samples_of, list3. rewrite !not_one3. cbn [x0 x1 x2].
    split; [reflexivity|]. split.
    { repeat constructor; apply samples_pos; assumption. }
    split; [reflexivity|]. split; [reflexivity|]. unfold all_dirs.
    rewrite !andb_true_iff, !Z.eqb_eq. split; tauto.
Qed.

(** ** Loops that append to a buffer *)

Lemma for_inv {A} (P : Z -> A -> Prop) b e s r body a :
  0 < s -> 0 <= r -> (r - 1) * s < e - b <= r * s -> INT_MIN <= b -> b + r * s <= INT_MAX ->
  P 0 a ->
  (forall t a, 0 <= t < r -> P t a -> exists a', body (b + t * s) a = Ok a' /\ P (t + 1) a') ->
  exists a', for_ b e s body a = Ok a' /\ P r a'.
Proof.
  intros Hs Hr Hc Hb1 Hb2 HP Hstep. unfold for_.
  cut (forall fuel t a, 0 <= t <= r -> r - t <= Z.of_nat fuel -> P t a ->
       exists a', for_lt fuel (b + t * s) e s body a = Ok a' /\ P r a').
  { intros H. specialize (H (Z.to_nat (e - b)) 0 a). replace (b + 0 * s) with b in H by lia.
    apply H; [lia|nia|assumption]. }
  clear a HP. induction fuel as [|fuel IH]; intros t a Ht Hf HP.
  - assert (t = r) by lia. subst t. exists a. cbn [for_lt].
    destruct (b + r * s <? e) eqn:E; zcmp; [lia|]. split; [reflexivity|assumption].
  - cbn [for_lt]. destruct (b + t * s <? e) eqn:E; zcmp.
    + assert (t < r) by nia. destruct (Hstep t a ltac:(lia) HP) as (a' & Ea & Pa).
      rewrite Ea. cbn [rbind]. unfold iadd. rewrite ck_ok by (unfold in_int; nia). cbn [rbind].
      replace (b + t * s + s) with (b + (t + 1) * s) by lia. apply IH; [lia|lia|assumption].
    + assert (t = r) by nia. subst t. eauto.
Qed.

(** A buffer of [total] bytes whose first bytes are [pre], the others not written yet. *)
Definition filled (total : nat) (pre : bytes) : buffer := map Some pre ++ repeat None (total - length pre).

Lemma filled_length total pre : (length pre <= total)%nat -> length (filled total pre) = total.
Proof. intros H. unfold filled. rewrite app_length, map_length, repeat_length. lia. Qed.

Lemma memcpy_filled total pre src off n :
  0 <= off -> 0 <= n -> off + n <= Z.of_nat (length src) ->
  Z.of_nat (length pre) + n <= Z.of_nat total ->
  memcpy (filled total pre) (Z.of_nat (length pre)) src off n
  = Ok (filled total (pre ++ firstn (Z.to_nat n) (skipn (Z.to_nat off) src))).
Proof.
  intros H1 H2 H3 H4. unfold memcpy. rewrite filled_length by lia.
  replace ((0 <=? Z.of_nat (length pre)) && (Z.of_nat (length pre) + n <=? Z.of_nat total) && (0 <=? off) &&
     (off + n <=? Z.of_nat (length src))) with true
    by (symmetry; rewrite !andb_true_iff, !Z.leb_le; lia).
  rewrite Nat2Z.id. f_equal. unfold filled.
  rewrite firstn_app, map_length, Nat.sub_diag, firstn_O, app_nil_r.
  rewrite firstn_all2 by (rewrite map_length; lia).
  rewrite (skipn_app _ (map Some pre)), map_length, (skipn_all2 (map Some pre)) by (rewrite map_length; lia). cbn [app].
  rewrite map_app, <- app_assoc. do 2 f_equal. rewrite app_length, firstn_length, skipn_length.
  replace (length pre + Z.to_nat n - length pre)%nat with (Z.to_nat n) by lia.
  replace (Nat.min (Z.to_nat n) (length src - Z.to_nat off)) with (Z.to_nat n) by lia.
  replace (total - length pre)%nat with (Z.to_nat n + (total - (length pre + Z.to_nat n)))%nat by lia.
  rewrite repeat_app, skipn_app, (skipn_all2 (repeat None (Z.to_nat n))) by (rewrite repeat_length; lia).
  rewrite repeat_length, Nat.sub_diag. reflexivity.
Qed.

Definition steps (b s r : Z) : list Z := map (fun t => b + t * s) (zrange 0 r).

Lemma steps_snoc b s r : 0 <= r -> steps b s (r + 1) = steps b s r ++ [b + r * s].
Proof.
  intros H. unfold steps. rewrite (zrange_snoc 0 (r + 1)) by lia.
  replace (r + 1 - 1) with r by lia. now rewrite map_app.
Qed.

Lemma flat_map_length_const {A B} (g : A -> list B) l L :
  (forall x, In x l -> length (g x) = L) -> length (flat_map g l) = (length l * L)%nat.
Proof.
  induction l as [|x l IH]; intros H; cbn [flat_map length]; [reflexivity|].
  rewrite app_length, IH by (intros; apply H; now right). rewrite (H x) by now left. lia.
Qed.

Lemma in_steps b s r i : In i (steps b s r) -> exists t, 0 <= t < r /\ i = b + t * s.
Proof. unfold steps. rewrite in_map_iff. intros (t & <- & H). apply in_zrange in H. eauto. Qed.

Lemma length_steps b s r : length (steps b s r) = Z.to_nat r.
Proof. unfold steps. rewrite map_length, length_zrange. f_equal. lia. Qed.

Lemma for_app total b e s r body (g : Z -> bytes) L pre :
  0 < s -> 0 <= r -> (r - 1) * s < e - b <= r * s -> INT_MIN <= b -> b + r * s <= INT_MAX ->
  (forall t, 0 <= t < r -> Z.of_nat (length (g (b + t * s))) = L) ->
  (forall t pre', 0 <= t < r -> Z.of_nat (length pre') = Z.of_nat (length pre) + t * L ->
     body (b + t * s) (filled total pre') = Ok (filled total (pre' ++ g (b + t * s)))) ->
  for_ b e s body (filled total pre) = Ok (filled total (pre ++ flat_map g (steps b s r))).
Proof.
  intros Hs Hr Hc Hb1 Hb2 HL Hstep.
  destruct (for_inv (fun t buf => 0 <= t <= r /\ buf = filled total (pre ++ flat_map g (steps b s t)))
              b e s r body (filled total pre) Hs Hr Hc Hb1 Hb2) as (a' & Ea & _ & Pa).
  - split; [lia|]. unfold steps. rewrite zrange_nil by lia. cbn. now rewrite app_nil_r.
  - intros t a Ht [_ ->]. eexists. split.
    + apply Hstep; [assumption|]. rewrite app_length.
      rewrite (flat_map_length_const g _ (Z.to_nat L)).
      * rewrite length_steps. pose proof (HL t Ht). nia.
      * intros x Hx. apply in_steps in Hx. destruct Hx as (u & Hu & ->). pose proof (HL u ltac:(lia)). lia.
    + split; [lia|]. rewrite steps_snoc by lia. rewrite flat_map_app. cbn [flat_map].
      now rewrite app_nil_r, <- app_assoc.
  - now rewrite Ea, Pa.
Qed.

(** ** Elements *)

Lemma element_length size mem i :
  0 <= size -> 0 <= i -> (i + 1) * size <= Z.of_nat (length mem) ->
  Z.of_nat (length (element size mem i)) = size.
Proof. intros H1 H2 H3. unfold element. rewrite firstn_length, skipn_length. nia. Qed.

Lemma firstn_add {A} n k (l : list A) : firstn (n + k) l = firstn n l ++ firstn k (skipn n l).
Proof.
  revert l. induction n as [|n IH]; intros l; [reflexivity|].
  destruct l; cbn [Nat.add firstn skipn app]; [now rewrite firstn_nil|]. now rewrite IH.
Qed.

Lemma skipn_skipn' {A} n k (l : list A) : skipn n (skipn k l) = skipn (k + n) l.
Proof. rewrite Nat.add_comm. revert l. induction k; intros l; [now rewrite Nat.add_0_r|].
  rewrite Nat.add_succ_r. destruct l; [now rewrite !skipn_nil|]. apply IHk.
Qed.

Lemma slice_elements size mem o n :
  0 <= size -> 0 <= o -> 0 <= n ->
  firstn (Z.to_nat (n * size)) (skipn (Z.to_nat (o * size)) mem) = flat_map (element size mem) (zrange o (o + n)).
Proof.
  intros Hs Ho Hn. revert n Hn. apply (natlike_ind (fun n => _ = _)).
  - rewrite zrange_nil by lia. reflexivity.
  - intros n Hn IH. unfold Z.succ. rewrite zrange_snoc by lia.
    replace (o + (n + 1) - 1) with (o + n) by lia. rewrite flat_map_app, <- IH. cbn [flat_map].
    rewrite app_nil_r. replace (Z.to_nat ((n + 1) * size)) with (Z.to_nat (n * size) + Z.to_nat size)%nat by nia.
    rewrite firstn_add. f_equal. unfold element. f_equal. rewrite skipn_skipn'. f_equal. nia.
Qed.

(** ** Index arithmetic *)

Lemma radix a b c i j k :
  0 <= i < a -> 0 <= j < b -> 0 <= k < c ->
  0 <= a * j /\ 0 <= a * b /\ 0 <= a * b * k /\ a * b <= a * b * c /\ a * j + i < a * b /\
  a * b * k + a * b <= a * b * c.
Proof.
  intros Hi Hj Hk. assert (0 <= a * b) by nia.
  repeat split; nia.
Qed.

Lemma i2sz_small z : 0 <= z < 2 ^ 64 -> i2sz z = z.
Proof. apply Z.mod_small. Qed.
Lemma szmul_small a b : 0 <= a * b < 2 ^ 64 -> szmul a b = a * b.
Proof. apply Z.mod_small. Qed.

Definition R0 (z : zone) : Z := ceil (x0 (z_max z) - x0 (z_begin z) - x0 (z_end z)) (x0 (z_skip z)).
Definition R1 (z : zone) : Z := ceil (x1 (z_max z) - x1 (z_begin z) - x1 (z_end z)) (x1 (z_skip z)).
Definition R2 (z : zone) : Z := ceil (x2 (z_max z) - x2 (z_begin z) - x2 (z_end z)) (x2 (z_skip z)).

Lemma dir_real max s b e : dir_fits max s b e ->
  let r := ceil (max - b - e) s in
  1 <= r <= max /\ (r - 1) * s < max - e - b <= r * s /\ b + r * s <= INT_MAX /\
  (forall t, 0 <= t < r -> 0 <= b + t * s < max /\ 0 <= t * s < max) /\
  sampled max s b e = steps b s r.
Proof.
  intros H r. unfold dir_fits in H. pose proof (ceil_bounds (max - b - e) s ltac:(lia)) as Hb. fold r in Hb.
  pose proof (ceil_pos (max - b - e) s ltac:(lia) ltac:(lia)) as Hp. fold r in Hp.
  pose proof (ceil_le (max - b - e) s ltac:(lia) ltac:(lia)) as Hl. fold r in Hl.
  split; [lia|]. split; [lia|]. split; [lia|]. split.
  - intros t Ht. assert (0 <= t * s) by nia. assert (t * s <= (r - 1) * s) by nia. lia.
  - unfold r, steps. apply sampled_eq; lia.
Qed.

Lemma prod_ge x y w : 0 < x -> 0 < y -> 0 < w ->
  x <= x * y * w /\ y <= x * y * w /\ w <= x * y * w /\ x * y <= x * y * w.
Proof.
  intros ? ? ?. assert (1 <= x * y) by nia. assert (x <= x * y) by nia. assert (y <= x * y) by nia.
  assert (x * y <= x * y * w) by nia. assert (w <= x * y * w) by nia. lia.
Qed.

Lemma scaled_le a n size : 0 < size -> 0 <= a < n -> 0 <= a * size /\ a * size + size <= n * size.
Proof. nia. Qed.

(** The pieces of the index computations. *)
Lemma col_index {A} (K : Z -> res A) b s t :
  0 < s -> 0 <= t <= INT_MAX -> 0 <= t * s <= INT_MAX ->
  (let* i := isub (b + t * s) b in let* i := idiv i s in K i) = K t.
Proof.
  intros Hs Ht Hts. unfold isub, idiv. replace (b + t * s - b) with (t * s) by lia.
  rewrite ck_ok by (unfold in_int; lia). cbn [rbind]. destruct (s =? 0) eqn:E; zcmp; [lia|].
  rewrite Z.quot_mul by lia. rewrite ck_ok by (unfold in_int; lia). reflexivity.
Qed.

Lemma row_index {A} (K : Z -> res A) b s t r :
  0 < s -> 0 <= t * s <= INT_MAX -> 0 <= r * (t * s) <= INT_MAX -> 0 <= r * t <= INT_MAX ->
  (let* j := isub (b + t * s) b in let* j := imul r j in let* j := idiv j s in K j) = K (r * t).
Proof.
  intros Hs Hts Hr Hrt. unfold isub, idiv, imul. replace (b + t * s - b) with (t * s) by lia.
  rewrite ck_ok by (unfold in_int; lia). cbn [rbind]. rewrite ck_ok by (unfold in_int; lia). cbn [rbind].
  destruct (s =? 0) eqn:E; zcmp; [lia|].
  rewrite Z.mul_assoc, Z.quot_mul by lia. rewrite ck_ok by (unfold in_int; lia). reflexivity.
Qed.

Lemma slab_index {A} (K : Z -> res A) b s t r r' :
  0 < s -> 0 <= t * s <= INT_MAX -> 0 <= r * r' <= INT_MAX -> 0 <= r * r' * (t * s) <= INT_MAX ->
  0 <= r * r' * t <= INT_MAX ->
  (let* k := isub (b + t * s) b in let* rr := imul r r' in let* k := imul rr k in let* k := idiv k s in K k)
  = K (r * r' * t).
Proof.
  intros Hs Hts Hrr Hr Hrt. unfold isub, idiv, imul. replace (b + t * s - b) with (t * s) by lia.
  rewrite ck_ok by (unfold in_int; lia). cbn [rbind]. rewrite ck_ok by (unfold in_int; lia). cbn [rbind].
  rewrite ck_ok by (unfold in_int; lia). cbn [rbind].
  destruct (s =? 0) eqn:E; zcmp; [lia|].
  rewrite Z.mul_assoc, Z.quot_mul by lia. rewrite ck_ok by (unfold in_int; lia). reflexivity.
Qed.

Lemma src_index {A} (K : Z -> res A) m m' i j k :
  0 <= m * j <= INT_MAX -> 0 <= i + m * j <= INT_MAX -> 0 <= m * m' <= INT_MAX -> 0 <= m * m' * k <= INT_MAX ->
  0 <= i + m * j + m * m' * k <= INT_MAX ->
  (let* a := imul m j in let* a := iadd i a in let* mm := imul m m' in let* c := imul mm k in
   let* o := iadd a c in K o) = K (i + m * j + m * m' * k).
Proof.
  intros H1 H2 H3 H4 H5. unfold imul, iadd.
  do 5 (rewrite ck_ok by (unfold in_int; lia); cbn [rbind]). reflexivity.
Qed.

(** All bounds of one step, for sizes [m], samples [r] and total bound [n]. *)
Lemma step_facts m0 m1 m2 r0 r1 r2 t0 t1 t2 i j k u1 u2 :
  0 <= r0 <= m0 -> 0 <= r1 <= m1 -> 0 <= r2 <= m2 -> m0 * m1 * m2 <= INT_MAX ->
  0 <= t0 < r0 -> 0 <= t1 < r1 -> 0 <= t2 < r2 -> 0 <= i < m0 -> 0 <= j < m1 -> 0 <= k < m2 ->
  0 <= u1 < m1 -> 0 <= u2 < m2 ->
  (0 <= r0 * u1 <= INT_MAX /\ 0 <= r0 * t1 <= INT_MAX) /\
  (0 <= r0 * r1 <= INT_MAX /\ 0 <= r0 * r1 * u2 <= INT_MAX /\ 0 <= r0 * r1 * t2 <= INT_MAX) /\
  (0 <= t0 + r0 * t1 <= INT_MAX /\ 0 <= t0 + r0 * t1 + r0 * r1 * t2 < r0 * r1 * r2) /\
  (0 <= m0 * j <= INT_MAX /\ 0 <= i + m0 * j <= INT_MAX /\ 0 <= m0 * m1 <= INT_MAX /\ 0 <= m0 * m1 * k <= INT_MAX) /\
  0 <= i + m0 * j + m0 * m1 * k < m0 * m1 * m2 /\ r0 * r1 * r2 <= m0 * m1 * m2 /\
  0 <= r0 * t1 + r0 * r1 * t2 /\ r0 * t1 + r0 * r1 * t2 + r0 <= r0 * r1 * r2.
Proof.
  intros A0 A1 A2 HN T0 T1 T2 S0 S1 S2 U1 U2.
  pose proof (radix _ _ _ _ _ _ S0 S1 S2) as (P1 & P2 & P3 & P4 & P5 & P6).
  pose proof (radix _ _ _ _ _ _ T0 T1 T2) as (Q1 & Q2 & Q3 & Q4 & Q5 & Q6).
  assert (V1 : 0 <= r0 * u1 <= m0 * m1) by (clear - A0 U1; nia).
  assert (V2 : 0 <= r0 * r1 <= m0 * m1) by (clear - A0 A1; nia).
  assert (V3 : 0 <= r0 * r1 * u2 <= m0 * m1 * m2) by (clear - V2 U2; nia).
  assert (V4 : r0 * r1 * r2 <= m0 * m1 * m2) by (clear - V2 A2; nia).
  assert (V5 : r0 * t1 + r0 <= r0 * r1) by (clear - A0 T1; nia).
  generalize dependent (r0 * u1). generalize dependent (r0 * r1 * u2). generalize dependent (r0 * r1 * r2).
  generalize dependent (r0 * r1 * t2). generalize dependent (r0 * r1). generalize dependent (r0 * t1).
  generalize dependent (m0 * m1 * m2). generalize dependent (m0 * m1 * k). generalize dependent (m0 * m1).
  generalize dependent (m0 * j). intros. lia.
Qed.

Lemma prod_le a b c a' b' c' : 0 <= a <= a' -> 0 <= b <= b' -> 0 <= c <= c' ->
  0 <= a * b <= a' * b' /\ 0 <= a * b * c <= a' * b' * c'.
Proof. intros Ha Hb Hc. assert (0 <= a * b <= a' * b') by nia. split; [assumption|]. nia. Qed.

Lemma steps_one b r : steps b 1 r = zrange b (b + r).
Proof.
  unfold steps, zrange. rewrite map_map. replace (b + r - b) with (r - 0) by lia.
  apply map_ext. intros t. lia.
Qed.

Lemma flat_map_shift {A} (f : Z -> list A) c b r :
  flat_map (fun i => f (i + c)) (zrange b (b + r)) = flat_map f (zrange (b + c) (b + c + r)).
Proof.
  unfold zrange. replace (b + r - b) with r by lia. replace (b + c + r - (b + c)) with r by lia.
  rewrite !flat_map_concat_map, !map_map. f_equal. apply map_ext. intros t. f_equal. lia.
Qed.

Lemma zrange_app m n : 0 <= m -> 0 <= n -> zrange 0 (m + n) = zrange 0 m ++ zrange m (m + n).
Proof.
  intros Hm Hn. revert n Hn. apply (natlike_ind (fun n => _ = _)).
  - rewrite Z.add_0_r, (zrange_nil m m) by lia. now rewrite app_nil_r.
  - intros n Hn IH. unfold Z.succ. rewrite (zrange_snoc 0), (zrange_snoc m) by lia.
    replace (m + (n + 1) - 1) with (m + n) by lia. now rewrite IH, app_assoc.
Qed.

Lemma flat_map_zrange_mul {A} (f : Z -> list A) a b : 0 <= a -> 0 <= b ->
  flat_map f (zrange 0 (a * b)) = flat_map (fun j => flat_map (fun i => f (i + a * j)) (zrange 0 a)) (zrange 0 b).
Proof.
  intros Ha Hb. revert b Hb. apply (natlike_ind (fun b => _ = _)).
  - rewrite Z.mul_0_r. reflexivity.
  - intros b Hb IH. unfold Z.succ. rewrite (zrange_snoc 0 (b + 1)) by lia.
    replace (b + 1 - 1) with b by lia. rewrite flat_map_app, <- IH. cbn [flat_map]. rewrite app_nil_r.
    replace (a * (b + 1)) with (a * b + a) by lia. rewrite zrange_app by nia. rewrite flat_map_app. f_equal.
    pose proof (flat_map_shift f (a * b) 0 a) as Hs. cbn [Z.add] in Hs. now rewrite Hs.
Qed.

Section Sampling.
Variables (z : zone) (size : Z) (mem : bytes).
Hypothesis (Hz : zone_fits z) (Hsize : 0 < size)
  (Hmem : org_count z * size <= Z.of_nat (length mem)) (H63 : org_count z * size < 2 ^ 63).

Let D0 : dir_fits (x0 (z_max z)) (x0 (z_skip z)) (x0 (z_begin z)) (x0 (z_end z)) := proj1 (proj1 Hz).
Let D1 : dir_fits (x1 (z_max z)) (x1 (z_skip z)) (x1 (z_begin z)) (x1 (z_end z)) := proj1 (proj2 (proj1 Hz)).
Let D2 : dir_fits (x2 (z_max z)) (x2 (z_skip z)) (x2 (z_begin z)) (x2 (z_end z)) := proj2 (proj2 (proj1 Hz)).

Lemma org_bound : org_count z <= INT_MAX.
Proof. exact (proj2 Hz). Qed.

Lemma real_count : 0 <= R0 z * R1 z <= org_count z /\ 1 <= R0 z * R1 z * R2 z <= org_count z.
Proof using Hz D0 D1 D2.
  clear H63 Hmem.
  destruct (dir_real _ _ _ _ D0) as (A0 & _). destruct (dir_real _ _ _ _ D1) as (A1 & _).
  destruct (dir_real _ _ _ _ D2) as (A2 & _). fold (R0 z) (R1 z) (R2 z) in *.
  unfold org_count.
  destruct (prod_le (R0 z) (R1 z) 1 (x0 (z_max z)) (x1 (z_max z)) (x2 (z_max z))) as [P1 P2]; [lia..|].
  destruct (prod_le (R0 z) (R1 z) (R2 z) (x0 (z_max z)) (x1 (z_max z)) (x2 (z_max z))) as [P3 P4]; [lia..|].
  assert (1 <= R0 z * R1 z) by nia. split; [lia|]. split; [nia|lia].
Qed.

Let g (k j i : Z) : bytes := element size mem (i + x0 (z_max z) * (j + x1 (z_max z) * k)).

Lemma block_eq :
  block_of z size mem =
  flat_map (fun k => flat_map (fun j => flat_map (g k j) (steps (x0 (z_begin z)) (x0 (z_skip z)) (R0 z)))
    (steps (x1 (z_begin z)) (x1 (z_skip z)) (R1 z))) (steps (x2 (z_begin z)) (x2 (z_skip z)) (R2 z)).
Proof.
  unfold block_of, sampled0, sampled1, sampled2.
  destruct (dir_real _ _ _ _ D0) as (_ & _ & _ & _ & ->). destruct (dir_real _ _ _ _ D1) as (_ & _ & _ & _ & ->).
  destruct (dir_real _ _ _ _ D2) as (_ & _ & _ & _ & ->). reflexivity.
Qed.

Lemma g_length k j i : 0 <= i < x0 (z_max z) -> 0 <= j < x1 (z_max z) -> 0 <= k < x2 (z_max z) ->
  Z.of_nat (length (g k j i)) = size.
Proof.
  intros Hi Hj Hk. unfold g. pose proof (radix _ _ _ _ _ _ Hi Hj Hk) as (P1 & P2 & P3 & P4 & P5 & P6).
  fold (org_count z) in *. apply element_length; [lia|nia|].
  assert (i + x0 (z_max z) * (j + x1 (z_max z) * k) + 1 <= org_count z) by nia. nia.
Qed.

Lemma row_length k j : 0 <= j < x1 (z_max z) -> 0 <= k < x2 (z_max z) ->
  Z.of_nat (length (flat_map (g k j) (steps (x0 (z_begin z)) (x0 (z_skip z)) (R0 z)))) = R0 z * size.
Proof.
  intros Hj Hk. destruct (dir_real _ _ _ _ D0) as (A0 & _ & _ & B0 & _). fold (R0 z) in *.
  rewrite (flat_map_length_const _ _ (Z.to_nat size)).
  - rewrite length_steps. nia.
  - intros i Hi. apply in_steps in Hi. destruct Hi as (t & Ht & ->). destruct (B0 t Ht).
    pose proof (g_length k j (x0 (z_begin z) + t * x0 (z_skip z))). lia.
Qed.

Lemma slab_length k : 0 <= k < x2 (z_max z) ->
  Z.of_nat (length (flat_map (fun j => flat_map (g k j) (steps (x0 (z_begin z)) (x0 (z_skip z)) (R0 z)))
    (steps (x1 (z_begin z)) (x1 (z_skip z)) (R1 z)))) = R0 z * R1 z * size.
Proof.
  intros Hk. destruct (dir_real _ _ _ _ D1) as (A1 & _ & _ & B1 & _). fold (R1 z) in *.
  destruct (dir_real _ _ _ _ D0) as (A0 & _). fold (R0 z) in *.
  rewrite (flat_map_length_const _ _ (Z.to_nat (R0 z * size))).
  - rewrite length_steps. nia.
  - intros i Hi. apply in_steps in Hi. destruct Hi as (t & Ht & ->). destruct (B1 t Ht).
    pose proof (row_length k (x1 (z_begin z) + t * x1 (z_skip z))). lia.
Qed.

Lemma block_length : Z.of_nat (length (block_of z size mem)) = R0 z * R1 z * R2 z * size.
Proof.
  rewrite block_eq. destruct (dir_real _ _ _ _ D2) as (A2 & _ & _ & B2 & _). fold (R2 z) in *.
  pose proof real_count.
  rewrite (flat_map_length_const _ _ (Z.to_nat (R0 z * R1 z * size))).
  - rewrite length_steps. nia.
  - intros i Hi. apply in_steps in Hi. destruct Hi as (t & Ht & ->). destruct (B2 t Ht).
    pose proof (slab_length (x2 (z_begin z) + t * x2 (z_skip z))). lia.
Qed.

Definition total : nat := Z.to_nat (R0 z * R1 z * R2 z * size).

Lemma skip_buf_eq :
  skip_buf z (mk3 (R0 z) (R1 z) (R2 z)) size mem (filled total [])
  = Ok (filled total (block_of z size mem)).
Proof.
  destruct (dir_real _ _ _ _ D0) as (A0 & C0 & I0 & B0 & _). destruct (dir_real _ _ _ _ D1) as (A1 & C1 & I1 & B1 & _).
  destruct (dir_real _ _ _ _ D2) as (A2 & C2 & I2 & B2 & _). fold (R0 z) (R1 z) (R2 z) in *.
  pose proof org_bound as Hob. pose proof real_count as [Hrc1 Hrc].
  pose proof D0 as E0. pose proof D1 as E1. pose proof D2 as E2. unfold dir_fits in E0, E1, E2.
  rewrite block_eq.
  destruct (prod_ge (x0 (z_max z)) (x1 (z_max z)) (x2 (z_max z))) as (M0 & M1 & M2 & M01); [lia..|].
  fold (org_count z) in *.
  unfold skip_buf. cbn [x0 x1 x2].
  unfold isub at 1. rewrite ck_ok by (unfold in_int; lia). cbn [rbind].
  apply (for_app total _ _ _ (R2 z) _ _ (R0 z * R1 z * size) []); try lia.
  { intros t Ht. apply slab_length. apply B2. assumption. }
  intros t2 pre2 Ht2 Hpre2. cbn [length] in Hpre2.
  unfold isub at 1. rewrite ck_ok by (unfold in_int; lia). cbn [rbind].
  apply (for_app total _ _ _ (R1 z) _ _ (R0 z * size) pre2); try lia.
  { intros t Ht. apply row_length; [apply B1|apply B2]; assumption. }
  intros t1 pre1 Ht1 Hpre1.
  unfold isub at 1. rewrite ck_ok by (unfold in_int; lia). cbn [rbind].
  apply (for_app total _ _ _ (R0 z) _ _ size pre1); try lia.
  { intros t Ht. apply g_length; [apply B0|apply B1|apply B2]; assumption. }
  intros t0 pre0 Ht0 Hpre0.
  destruct (B0 t0 Ht0) as [S0 T0]. destruct (B1 t1 Ht1) as [S1 T1]. destruct (B2 t2 Ht2) as [S2 T2].
  destruct (step_facts (x0 (z_max z)) (x1 (z_max z)) (x2 (z_max z)) (R0 z) (R1 z) (R2 z) t0 t1 t2 _ _ _
    (t1 * x1 (z_skip z)) (t2 * x2 (z_skip z)) ltac:(lia) ltac:(lia) ltac:(lia) Hob Ht0 Ht1 Ht2 S0 S1 S2 T1 T2)
    as ((F1 & F2) & (F3 & F4 & F5) & (F6 & F7) & (F8 & F9 & F10 & F11) & F12 & F13 & _).
  fold (org_count z) in *.
  assert (G0 : 0 <= t0 * x0 (z_skip z) <= INT_MAX) by (clear - T0 M0 Hob; lia).
  assert (G1 : 0 <= t1 * x1 (z_skip z) <= INT_MAX) by (clear - T1 M1 Hob; lia).
  assert (G2 : 0 <= t2 * x2 (z_skip z) <= INT_MAX) by (clear - T2 M2 Hob; lia).
  assert (G3 : 0 <= t0 <= INT_MAX) by (clear - Ht0 A0 M0 Hob; lia).
  rewrite col_index; [|exact (proj1 E0)|assumption|assumption].
  rewrite row_index; [|exact (proj1 E1)|assumption|assumption|assumption].
  unfold iadd at 1. rewrite ck_ok by (unfold in_int; clear - F6; lia). cbn [rbind].
  rewrite slab_index; [|exact (proj1 E2)|assumption|assumption|assumption|assumption].
  unfold iadd at 1. rewrite ck_ok by (unfold in_int; clear - F7 F13 Hob; lia). cbn [rbind].
  rewrite src_index; [|assumption|assumption|assumption|assumption|clear - F12 Hob; lia].
  set (i := x0 (z_begin z) + t0 * x0 (z_skip z)) in *. set (j := x1 (z_begin z) + t1 * x1 (z_skip z)) in *.
  set (k := x2 (z_begin z) + t2 * x2 (z_skip z)) in *.
  assert (Hpos : Z.of_nat (length pre0) = (t0 + R0 z * t1 + R0 z * R1 z * t2) * size) by (clear - Hpre0 Hpre1 Hpre2; lia).
  destruct (scaled_le (t0 + R0 z * t1 + R0 z * R1 z * t2) (R0 z * R1 z * R2 z) size Hsize F7) as [Hd1 Hd2].
  destruct (scaled_le (i + x0 (z_max z) * j + x0 (z_max z) * x1 (z_max z) * k) (org_count z) size Hsize F12) as [Ho1 Ho2].
  assert (Hr : R0 z * R1 z * R2 z * size <= org_count z * size)
    by (clear - Hsize F13; apply Z.mul_le_mono_nonneg_r; lia).
  rewrite !i2sz_small by (clear - F7 F12 F13 Hob; lia).
  rewrite !szmul_small by (clear - Hd1 Hd2 Ho1 Ho2 Hr H63 Hsize; lia).
  rewrite <- Hpos in *.
  rewrite memcpy_filled; [|exact Ho1|clear - Hsize; lia|clear - Ho2 Hmem; lia|unfold total; clear - Hd2; lia].
  do 3 f_equal. unfold g, element. f_equal. f_equal. f_equal. lia.
Qed.

(** *** Cut only *)

Lemma row_slice k j : x0 (z_skip z) = 1 -> 0 <= j -> 0 <= k ->
  flat_map (g k j) (steps (x0 (z_begin z)) (x0 (z_skip z)) (R0 z)) =
  firstn (Z.to_nat (R0 z * size))
    (skipn (Z.to_nat ((x0 (z_begin z) + x0 (z_max z) * j + x0 (z_max z) * x1 (z_max z) * k) * size)) mem).
Proof.
  intros E Hj Hk. pose proof D0 as E0. pose proof D1 as E1. unfold dir_fits in E0, E1.
  destruct (dir_real _ _ _ _ D0) as (A0 & _). fold (R0 z) in *.
  rewrite E, steps_one. unfold g.
  rewrite (flat_map_shift (element size mem) (x0 (z_max z) * (j + x1 (z_max z) * k))).
  assert (0 <= x1 (z_max z) * k) by (apply Z.mul_nonneg_nonneg; lia).
  assert (0 <= x0 (z_max z) * (j + x1 (z_max z) * k)) by (apply Z.mul_nonneg_nonneg; lia).
  rewrite <- slice_elements by lia.
  replace (x0 (z_begin z) + x0 (z_max z) * (j + x1 (z_max z) * k))
    with (x0 (z_begin z) + x0 (z_max z) * j + x0 (z_max z) * x1 (z_max z) * k) by lia. reflexivity.
Qed.

Lemma cut_buf_eq : x0 (z_skip z) = 1 ->
  cut_buf z (mk3 (R0 z) (R1 z) (R2 z)) size mem (filled total [])
  = Ok (filled total (block_of z size mem)).
Proof.
  intros Hone.
  destruct (dir_real _ _ _ _ D0) as (A0 & C0 & I0 & B0 & _). destruct (dir_real _ _ _ _ D1) as (A1 & C1 & I1 & B1 & _).
  destruct (dir_real _ _ _ _ D2) as (A2 & C2 & I2 & B2 & _). fold (R0 z) (R1 z) (R2 z) in *.
  pose proof org_bound as Hob. pose proof real_count as [Hrc1 Hrc].
  pose proof D0 as E0. pose proof D1 as E1. pose proof D2 as E2. unfold dir_fits in E0, E1, E2.
  rewrite block_eq.
  destruct (prod_ge (x0 (z_max z)) (x1 (z_max z)) (x2 (z_max z))) as (M0 & M1 & M2 & M01); [lia..|].
  fold (org_count z) in *.
  unfold cut_buf. cbn [x0 x1 x2].
  unfold isub at 1. rewrite ck_ok by (unfold in_int; lia). cbn [rbind].
  apply (for_app total _ _ _ (R2 z) _ _ (R0 z * R1 z * size) []); try lia.
  { intros t Ht. apply slab_length. apply B2. assumption. }
  intros t2 pre2 Ht2 Hpre2. cbn [length] in Hpre2.
  unfold isub at 1. rewrite ck_ok by (unfold in_int; lia). cbn [rbind].
  apply (for_app total _ _ _ (R1 z) _ _ (R0 z * size) pre2); try lia.
  { intros t Ht. apply row_length; [apply B1|apply B2]; assumption. }
  intros t1 pre1 Ht1 Hpre1.
  assert (Ht0 : 0 <= 0 < R0 z) by lia.
  destruct (B0 0 Ht0) as [S0 T0]. destruct (B1 t1 Ht1) as [S1 T1]. destruct (B2 t2 Ht2) as [S2 T2].
  rewrite Z.mul_0_l, Z.add_0_r in S0.
  destruct (step_facts (x0 (z_max z)) (x1 (z_max z)) (x2 (z_max z)) (R0 z) (R1 z) (R2 z) 0 t1 t2 _ _ _
    (t1 * x1 (z_skip z)) (t2 * x2 (z_skip z)) ltac:(lia) ltac:(lia) ltac:(lia) Hob Ht0 Ht1 Ht2 S0 S1 S2 T1 T2)
    as ((F1 & F2) & (F3 & F4 & F5) & (F6 & F7) & (F8 & F9 & F10 & F11) & F12 & F13 & F14 & F15).
  assert (HE : x0 (z_begin z) + R0 z <= x0 (z_max z)) by (clear - C0 Hone E0; rewrite Hone in C0; lia).
  fold (org_count z) in *.
  assert (G1 : 0 <= t1 * x1 (z_skip z) <= INT_MAX) by (clear - T1 M1 Hob; lia).
  assert (G2 : 0 <= t2 * x2 (z_skip z) <= INT_MAX) by (clear - T2 M2 Hob; lia).
  rewrite row_index; [|exact (proj1 E1)|assumption|assumption|assumption].
  rewrite slab_index; [|exact (proj1 E2)|assumption|assumption|assumption|assumption].
  unfold iadd at 1. rewrite ck_ok by (unfold in_int; clear - F14 F15 F13 Hob Ht0; lia). cbn [rbind].
  rewrite src_index; [|assumption|assumption|assumption|assumption|clear - F12 Hob; lia].
  rewrite row_slice; [|assumption|exact (proj1 S1)|exact (proj1 S2)].
  set (j := x1 (z_begin z) + t1 * x1 (z_skip z)) in *.
  set (k := x2 (z_begin z) + t2 * x2 (z_skip z)) in *.
  assert (Hpos : Z.of_nat (length pre1) = (R0 z * t1 + R0 z * R1 z * t2) * size) by (clear - Hpre1 Hpre2; lia).
  assert (Hlast : x0 (z_begin z) + R0 z - 1 + x0 (z_max z) * j + x0 (z_max z) * x1 (z_max z) * k < org_count z).
  { assert (S3 : 0 <= x0 (z_begin z) + R0 z - 1 < x0 (z_max z)) by (clear - HE Ht0 S0; lia).
    pose proof (radix _ _ _ _ _ _ S3 S1 S2) as (_ & _ & _ & _ & P5 & P6). fold (org_count z) in *. clear - P5 P6. lia. }
  assert (Hsrc : 0 <= (x0 (z_begin z) + x0 (z_max z) * j + x0 (z_max z) * x1 (z_max z) * k) * size /\
    (x0 (z_begin z) + x0 (z_max z) * j + x0 (z_max z) * x1 (z_max z) * k) * size + R0 z * size <= org_count z * size).
  { clear - Hlast F12 Hsize. rewrite <- Z.mul_add_distr_r. split; [apply Z.mul_nonneg_nonneg; lia|].
    apply Z.mul_le_mono_nonneg_r; lia. }
  assert (Hdst : 0 <= (R0 z * t1 + R0 z * R1 z * t2) * size /\
     (R0 z * t1 + R0 z * R1 z * t2) * size + R0 z * size <= R0 z * R1 z * R2 z * size).
  { clear - F14 F15 Hsize. rewrite <- Z.mul_add_distr_r. split; [apply Z.mul_nonneg_nonneg; lia|].
    apply Z.mul_le_mono_nonneg_r; lia. }
  assert (Hr : R0 z * R1 z * R2 z * size <= org_count z * size)
    by (clear - Hsize F13; apply Z.mul_le_mono_nonneg_r; lia).
  assert (HR : 0 <= R0 z * size) by (clear - A0 Hsize; nia).
  rewrite !i2sz_small by (clear - F12 F14 F15 F13 Ht0 A0 M0 Hob; lia).
  rewrite !szmul_small by (clear - Hdst Hsrc Hr H63 HR; lia).
  rewrite <- Hpos in *. destruct Hsrc as [Ho1 Ho2]. destruct Hdst as [Hd1 Hd2].
  rewrite memcpy_filled; [reflexivity|exact Ho1|exact HR|clear - Ho2 Hmem; lia|unfold total; clear - Hd2; lia].
Qed.

(** *** All of the array *)

Lemma block_all :
  all_dirs (fun _ s _ _ => s = 1) z -> all_dirs (fun _ _ b e => b = 0 /\ e = 0) z ->
  block_of z size mem = firstn (Z.to_nat (org_count z * size)) mem.
Proof.
  intros (K0 & K1 & K2) ((L0 & N0) & (L1 & N1) & (L2 & N2)).
  pose proof D0 as E0. pose proof D1 as E1. pose proof D2 as E2. unfold dir_fits in E0, E1, E2.
  rewrite block_eq. unfold R0, R1, R2. rewrite K0, K1, K2, L0, L1, L2, N0, N1, N2.
  rewrite !steps_one.
  rewrite !(fun n => ceil_spec n 1 n) by lia.
  replace (0 + (x0 (z_max z) - 0 - 0)) with (x0 (z_max z)) by lia.
  replace (0 + (x1 (z_max z) - 0 - 0)) with (x1 (z_max z)) by lia.
  replace (0 + (x2 (z_max z) - 0 - 0)) with (x2 (z_max z)) by lia.
  replace (firstn (Z.to_nat (org_count z * size)) mem)
    with (firstn (Z.to_nat (org_count z * size)) (skipn (Z.to_nat (0 * size)) mem)) by reflexivity.
  pose proof (prod_ge (x0 (z_max z)) (x1 (z_max z)) (x2 (z_max z)) ltac:(lia) ltac:(lia) ltac:(lia)) as HH.
  fold (org_count z) in HH.
  rewrite slice_elements by lia. rewrite Z.add_0_l. unfold org_count. rewrite <- Z.mul_assoc.
  rewrite (flat_map_zrange_mul _ (x0 (z_max z))) by (try lia; apply Z.mul_nonneg_nonneg; lia).
  rewrite (flat_map_zrange_mul _ (x1 (z_max z)) (x2 (z_max z))) by lia.
  reflexivity.
Qed.
End Sampling.

(** ** Buffers *)

Lemma fits_ints z : zone_fits z -> all_dirs dir_ints z /\ ~ some_dir dir_bad z.
Proof.
  intros ((H0 & H1 & H2) & Hn). unfold dir_fits in *. unfold org_count in Hn.
  destruct (prod_ge (x0 (z_max z)) (x1 (z_max z)) (x2 (z_max z))) as (M0 & M1 & M2 & M01); [lia..|].
  unfold all_dirs, some_dir, dir_ints, dir_bad, in_int.
  generalize dependent (x0 (z_max z) * x1 (z_max z) * x2 (z_max z)).
  generalize dependent (x0 (z_max z) * x1 (z_max z)). intros. lia.
Qed.

Lemma fits_gather z : zone_fits z -> exists r,
  gather_real_size z = Ok r /\ r_max r = mk3 (R0 z) (R1 z) (R2 z) /\
  (r_noskip r = true <-> all_dirs (fun _ s _ _ => s = 1) z) /\
  (r_noexc r = true <-> all_dirs (fun _ _ b e => b = 0 /\ e = 0) z).
Proof.
  intros Hz. destruct (fits_ints z Hz) as [HI HB]. destruct (gather_size z HI) as [_ HG].
  destruct (HG HB) as (r & Er & Hm & _ & _ & _ & Hs & He). exists r.
  split; [assumption|]. split; [|tauto].
  destruct (r_max r) as [r0 r1 r2]. unfold list3, samples_of in Hm. cbn [x0 x1 x2] in Hm.
  destruct Hz as ((H0 & H1 & H2) & _). unfold dir_fits in *.
  assert (r0 = R0 z /\ r1 = R1 z /\ r2 = R2 z) as (-> & -> & ->); [|reflexivity].
  injection Hm as -> -> ->. unfold R0, R1, R2. rewrite <- !samples_eq by lia. unfold samples. tauto.
Qed.

Lemma filled_all total (pre : bytes) : length pre = total -> filled total pre = map Some pre.
Proof. intros <-. unfold filled. rewrite Nat.sub_diag. cbn. apply app_nil_r. Qed.

Lemma buffer_ok z r d mem oom :
  zone_fits z -> data_fits z d mem -> gather_real_size z = Ok r -> (r_noskip r && r_noexc r = false -> oom = false) ->
  exists buf, make_buf1 z r oom d = Ok buf /\
    firstn (length (block_of z (d_size d) mem)) buf = map Some (block_of z (d_size d) mem) /\
    Z.of_nat (length (block_of z (d_size d) mem)) = x0 (r_max r) * x1 (r_max r) * x2 (r_max r) * d_size d.
Proof.
  intros Hz (Hmem & Hs & Hl & H63) Hr Hoom.
  destruct (fits_gather z Hz) as (r' & Er & Em & Hns & Hne). rewrite Er in Hr. injection Hr as ->.
  pose proof (block_length z (d_size d) mem Hz Hs Hl) as HL.
  unfold make_buf1. rewrite Hmem, Em. cbn [x0 x1 x2].
  destruct (real_count z Hz) as [_ Hrc].
  pose proof (org_bound z Hz) as Hob.
  assert (Hp : imul3 (mk3 (R0 z) (R1 z) (R2 z)) = Ok (R0 z * R1 z * R2 z)).
  { unfold imul3. cbn [x0 x1 x2]. destruct (real_count z Hz) as [Hrc1 _].
    unfold imul. rewrite ck_ok by (unfold in_int; lia). cbn [rbind]. rewrite ck_ok by (unfold in_int; lia). reflexivity. }
  assert (Hr : R0 z * R1 z * R2 z * d_size d <= org_count z * d_size d) by (apply Z.mul_le_mono_nonneg_r; lia).
  assert (Hnb : oom = false -> new_buf oom (mk3 (R0 z) (R1 z) (R2 z)) (d_size d) = Ok (filled (total z (d_size d)) [])).
  { intros ->. unfold new_buf. rewrite Hp. cbn [rbind]. rewrite i2sz_small, szmul_small by nia.
    destruct (2 ^ 63 - 1 <? R0 z * R1 z * R2 z * d_size d) eqn:E; zcmp; [lia|].
    unfold filled, total. cbn. now rewrite Nat.sub_0_r. }
  assert (Hfa : filled (total z (d_size d)) (block_of z (d_size d) mem) = map Some (block_of z (d_size d) mem))
    by (apply filled_all; unfold total; lia).
  destruct (r_noskip r) eqn:E1; cbn [andb] in *.
  - destruct (r_noexc r) eqn:E2.
    + eexists. split; [reflexivity|]. split; [|assumption].
      assert (Hb : block_of z (d_size d) mem = firstn (Z.to_nat (org_count z * d_size d)) mem)
        by (apply block_all; tauto).
      rewrite Hb at 2. rewrite <- firstn_map. f_equal. rewrite Hb, firstn_length. nia.
    + rewrite (Hnb (Hoom eq_refl)). cbn [rbind]. rewrite cut_buf_eq; try assumption.
      * rewrite Hfa. eexists. split; [reflexivity|]. split; [|assumption].
        rewrite <- (map_length Some) at 1. apply firstn_all.
      * apply proj1 in Hns. destruct (Hns eq_refl) as [Hx _]. exact Hx.
  - rewrite (Hnb (Hoom eq_refl)). cbn [rbind]. rewrite skip_buf_eq; try assumption.
    rewrite Hfa. eexists. split; [reflexivity|]. split; [|assumption].
    rewrite <- (map_length Some) at 1. apply firstn_all.
Qed.

(** ** The block point by point *)

Lemma flat_map_slice {B} (g : Z -> list B) b s r L t o n :
  0 <= t < r -> (forall u, 0 <= u < r -> length (g (b + u * s)) = L) -> (o + n <= L)%nat ->
  firstn n (skipn (Z.to_nat t * L + o) (flat_map g (steps b s r))) = firstn n (skipn o (g (b + t * s))).
Proof.
  intros Ht HL Hn.
  assert (E : steps b s r = steps b s t ++ (b + t * s) :: map (fun u => b + u * s) (zrange (t + 1) r)).
  { unfold steps. replace r with (t + (r - t)) at 1 by lia. rewrite zrange_app by lia.
    replace (t + (r - t)) with r by lia. rewrite (zrange_cons t r) by lia. now rewrite map_app. }
  rewrite E, flat_map_app. cbn [flat_map].
  assert (Hlen : length (flat_map g (steps b s t)) = (Z.to_nat t * L)%nat).
  { rewrite (flat_map_length_const _ _ L), length_steps; [reflexivity|].
    intros x Hx. apply in_steps in Hx. destruct Hx as (u & Hu & ->). apply HL. lia. }
  rewrite skipn_app, skipn_all2, app_nil_l by lia. rewrite Hlen.
  replace (Z.to_nat t * L + o - Z.to_nat t * L)%nat with o by lia.
  rewrite skipn_app, firstn_app. rewrite skipn_length, (HL t Ht).
  replace (n - (L - o))%nat with O by lia. rewrite firstn_O. apply app_nil_r.
Qed.

Lemma block_point z size mem a b c :
  zone_fits z -> 0 < size -> org_count z * size <= Z.of_nat (length mem) ->
  0 <= a < Z.of_nat (length (sampled0 z)) -> 0 <= b < Z.of_nat (length (sampled1 z)) ->
  0 <= c < Z.of_nat (length (sampled2 z)) ->
  element size (block_of z size mem)
    (a + Z.of_nat (length (sampled0 z)) * (b + Z.of_nat (length (sampled1 z)) * c))
  = element size mem
      ((x0 (z_begin z) + a * x0 (z_skip z)) + x0 (z_max z) *
       ((x1 (z_begin z) + b * x1 (z_skip z)) + x1 (z_max z) * (x2 (z_begin z) + c * x2 (z_skip z)))).
Proof.
  intros Hz Hs Hl. pose proof Hz as ((D0 & D1 & D2) & _).
  destruct (dir_real _ _ _ _ D0) as (A0 & _ & _ & B0 & S0). destruct (dir_real _ _ _ _ D1) as (A1 & _ & _ & B1 & S1).
  destruct (dir_real _ _ _ _ D2) as (A2 & _ & _ & B2 & S2). fold (R0 z) (R1 z) (R2 z) in *.
  unfold sampled0, sampled1, sampled2. rewrite S0, S1, S2, !length_steps, !Z2Nat.id by lia.
  intros Ha Hb Hc. unfold element at 1. rewrite (block_eq z size mem Hz).
  set (L0 := Z.to_nat (R0 z * size)). set (L1 := Z.to_nat (R0 z * R1 z * size)).
  assert (P1 : 0 <= R0 z * R1 z) by nia.
  assert (HR0 : (Z.to_nat a * Z.to_nat size + Z.to_nat size <= L0)%nat) by (unfold L0; nia).
  assert (HR1 : (Z.to_nat b * L0 + L0 <= L1)%nat).
  { unfold L0, L1. clear - Hb A0 A1 Hs. rewrite <- (Z2Nat.inj_mul b) by nia.
    rewrite <- Z2Nat.inj_add by nia. apply Z2Nat.inj_le; nia. }
  replace (Z.to_nat ((a + R0 z * (b + R1 z * c)) * size))
    with (Z.to_nat c * L1 + (Z.to_nat b * L0 + (Z.to_nat a * Z.to_nat size + 0)))%nat.
  2:{ unfold L0, L1. clear - Ha Hb Hc Hs P1 A0. rewrite Nat.add_0_r. rewrite <- !Z2Nat.inj_mul by nia.
      assert (0 <= a * size) by nia. assert (0 <= b * (R0 z * size)) by nia. assert (0 <= c * (R0 z * R1 z * size)) by nia.
      rewrite <- !Z2Nat.inj_add by lia. f_equal. ring. }
  rewrite (flat_map_slice _ _ _ _ L1).
  - rewrite (flat_map_slice _ _ _ _ L0).
    + rewrite (flat_map_slice _ _ _ _ (Z.to_nat size)).
      * rewrite skipn_O. rewrite firstn_all2; [reflexivity|]. unfold element. rewrite firstn_length. lia.
      * assumption.
      * intros u Hu. pose proof (g_length z size mem Hs Hl (x2 (z_begin z) + c * x2 (z_skip z))
          (x1 (z_begin z) + b * x1 (z_skip z)) (x0 (z_begin z) + u * x0 (z_skip z))) as G.
        specialize (G (proj1 (B0 u Hu)) (proj1 (B1 b Hb)) (proj1 (B2 c Hc))). cbv beta zeta in G. lia.
      * lia.
    + assumption.
    + intros u Hu. pose proof (row_length z size mem Hz Hs Hl (x2 (z_begin z) + c * x2 (z_skip z))
          (x1 (z_begin z) + u * x1 (z_skip z)) (proj1 (B1 u Hu)) (proj1 (B2 c Hc))) as G. cbv beta zeta in G.
      unfold L0. lia.
    + lia.
  - assumption.
  - intros u Hu. pose proof (slab_length z size mem Hz Hs Hl (x2 (z_begin z) + u * x2 (z_skip z)) (proj1 (B2 u Hu))) as G.
    cbv beta zeta in G. unfold L1. lia.
  - lia.
Qed.

Lemma buffer_oom z r d mem :
  zone_fits z -> data_fits z d mem -> gather_real_size z = Ok r -> r_noskip r && r_noexc r = false ->
  exists m, make_buf1 z r true d = Err (ETec m).
Proof.
  intros Hz (Hmem & Hs & Hl & H63) Hr Hn.
  destruct (fits_gather z Hz) as (r' & Er & Em & _ & _). rewrite Er in Hr. injection Hr as ->.
  unfold make_buf1. rewrite Hmem, Em, Hn. unfold new_buf.
  assert (Hp : imul3 (mk3 (R0 z) (R1 z) (R2 z)) = Ok (R0 z * R1 z * R2 z)).
  { unfold imul3. cbn [x0 x1 x2]. destruct (real_count z Hz) as [Hrc1 Hrc]. pose proof (org_bound z Hz).
    unfold imul. rewrite ck_ok by (unfold in_int; lia). cbn [rbind]. rewrite ck_ok by (unfold in_int; lia). reflexivity. }
  rewrite Hp. cbn [rbind]. destruct (_ <? _); cbn [rbind]; eauto.
Qed.
