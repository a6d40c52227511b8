(** Minimum and maximum of a block. *)

From Coq Require Import ZArith Ascii String List Bool Lia.
From Verif Require Import Base M_Bytes M_TecZone Spec_Loop Spec_Tec L_Base L_TecZone.
Import ListNotations.
Open Scope list_scope.
Open Scope Z_scope.

(** ** Bytes *)

Lemma b2z_range c : 0 <= b2z c < 256.
Proof.
  unfold b2z. pose proof (N_ascii_bounded c). lia.
Qed.

Lemma unle_range l : 0 <= unle l < 256 ^ Z.of_nat (length l).
Proof.
  induction l as [|c l IH]; cbn [unle length]; [cbn; lia|].
  rewrite Nat2Z.inj_succ, Z.pow_succ_r by lia. pose proof (b2z_range c). lia.
Qed.

Lemma all_some_map l : all_some (map Some l) = Some l.
Proof. induction l as [|c l IH]; cbn; [reflexivity|]. rewrite IH. reflexivity. Qed.

Lemma peek_holds buf blk off n :
  holds buf blk -> 0 <= off -> 0 <= n -> off + n <= Z.of_nat (length blk) ->
  peek buf off n = Ok (firstn (Z.to_nat n) (skipn (Z.to_nat off) blk)).
Proof.
  unfold holds. intros H Ho Hn Hl. unfold peek.
  assert (Hb : (length blk <= length buf)%nat).
  { apply (f_equal (@length _)) in H. rewrite firstn_length, map_length in H. lia. }
  replace (0 <=? off) with true by (symmetry; apply Z.leb_le; lia).
  replace (off + n <=? Z.of_nat (length buf)) with true by (symmetry; apply Z.leb_le; lia). cbn [andb].
  replace (firstn (Z.to_nat n) (skipn (Z.to_nat off) buf))
    with (firstn (Z.to_nat n) (skipn (Z.to_nat off) (firstn (length blk) buf))).
  - rewrite H, skipn_map, firstn_map, all_some_map. reflexivity.
  - rewrite skipn_firstn_comm, firstn_firstn. f_equal. lia.
Qed.

(** ** Floating point formats *)

Lemma num64_make s e m :
  (s = 0 \/ s = 1) -> 0 <= e < 2048 -> 0 <= m < 2 ^ 52 ->
  num64 (s * 2 ^ 63 + e * 2 ^ 52 + m) =
  if e =? 2047 then (if m =? 0 then (if s =? 0 then PInf else MInf) else NaN)
  else Fin (let a := if e =? 0 then m else (2 ^ 52 + m) * 2 ^ (e - 1) in if s =? 0 then a else - a).
Proof.
  intros Hs He Hm. unfold num64, fnum. set (b := s * 2 ^ 63 + e * 2 ^ 52 + m).
  assert (E1 : b / 2 ^ (11 + 52) mod 2 = s).
  { replace (b / 2 ^ (11 + 52)) with s.
    - destruct Hs as [->| ->]; reflexivity.
    - apply Z.div_unique with (e * 2 ^ 52 + m); unfold b; change (2 ^ (11 + 52)) with (2 ^ 63);
      change (2 ^ 63) with (2048 * 2 ^ 52) in *; nia. }
  assert (E2 : b / 2 ^ 52 = s * 2048 + e).
  { symmetry. apply Z.div_unique with m; unfold b; [lia|]. change (2 ^ 63) with (2048 * 2 ^ 52). ring. }
  assert (E3 : b mod 2 ^ 52 = m).
  { symmetry. apply Z.mod_unique with (s * 2048 + e); unfold b; [lia|]. change (2 ^ 63) with (2048 * 2 ^ 52). ring. }
  rewrite E1, E2, E3. change (2 ^ 11) with 2048. rewrite Z.add_comm, Z.mod_add, Z.mod_small by lia.
  change (2048 - 1) with 2047. destruct (e =? 2047); reflexivity.
Qed.

Lemma make_range s e m :
  (s = 0 \/ s = 1) -> 0 <= e < 2048 -> 0 <= m < 2 ^ 52 -> 0 <= s * 2 ^ 63 + e * 2 ^ 52 + m < 2 ^ 64.
Proof. intros. change (2 ^ 63) with (2048 * 2 ^ 52). change (2 ^ 64) with (4096 * 2 ^ 52). lia. Qed.

Lemma log2_range m : 0 < m -> 2 ^ Z.log2 m <= m < 2 * 2 ^ Z.log2 m.
Proof.
  intros H. pose proof (Z.log2_spec m H) as [A B]. rewrite Z.pow_succ_r in B by apply Z.log2_nonneg. lia.
Qed.

Lemma norm_mant m k : 0 <= k <= 52 -> 2 ^ k <= m < 2 * 2 ^ k ->
  0 <= (m - 2 ^ k) * 2 ^ (52 - k) < 2 ^ 52 /\ 2 ^ 52 + (m - 2 ^ k) * 2 ^ (52 - k) = m * 2 ^ (52 - k).
Proof.
  intros Hk Hm. assert (E : 2 ^ 52 = 2 ^ k * 2 ^ (52 - k)) by (rewrite <- Z.pow_add_r by lia; f_equal; lia).
  assert (0 < 2 ^ (52 - k)) by (apply Z.pow_pos_nonneg; lia).
  split; [|rewrite E; ring]. rewrite E. split; [nia|]. apply Z.mul_lt_mono_pos_r; lia.
Qed.

Lemma bit_cases x : x mod 2 = 0 \/ x mod 2 = 1.
Proof. pose proof (Z.mod_pos_bound x 2). lia. Qed.

Lemma float_double b : 0 <= b < 2 ^ 32 -> number 1 b <> NaN ->
  0 <= f32_to_f64 b < 2 ^ 64 /\ num64 (f32_to_f64 b) = number 1 b.
Proof.
  intros Hb. unfold number, num32, fnum, f32_to_f64, scale.
  change (2 ^ (8 + 23)) with (2 ^ 31). set (s := b / 2 ^ 31 mod 2). set (e := b / 2 ^ 23 mod 2 ^ 8). set (m := b mod 2 ^ 23).
  assert (Hs : s = 0 \/ s = 1) by apply bit_cases.
  assert (He : 0 <= e < 256) by (apply (Z.mod_pos_bound _ (2 ^ 8)); lia).
  assert (Hm : 0 <= m < 2 ^ 23) by (apply Z.mod_pos_bound; lia).
  change (2 ^ 8 - 1) with 255. destruct (e =? 255) eqn:E; zcmp.
  - destruct (m =? 0) eqn:Em; [|congruence]. intros _. split; [apply make_range; lia|].
    rewrite num64_make by lia. cbn [Z.eqb Pos.eqb]. destruct (s =? 0); reflexivity.
  - intros _. destruct (e =? 0) eqn:E0; zcmp.
    + destruct (m =? 0) eqn:Em; zcmp.
      * replace (s * 2 ^ 63) with (s * 2 ^ 63 + 0 * 2 ^ 52 + 0) by ring.
        split; [apply make_range; lia|]. rewrite num64_make by lia. cbn [Z.eqb]. f_equal. rewrite Em.
        destruct (s =? 0); reflexivity.
      * set (k := Z.log2 m).
        assert (Hk : 0 <= k < 23).
        { split; [apply Z.log2_nonneg|]. apply Z.log2_lt_pow2; lia. }
        destruct (norm_mant m k ltac:(lia) ltac:(apply log2_range; lia)) as [A B].
        split; [apply make_range; lia|]. rewrite num64_make by lia.
        destruct (874 + k =? 2047) eqn:F; zcmp; [lia|]. destruct (874 + k =? 0) eqn:G; zcmp; [lia|].
        rewrite B. f_equal. cbv zeta.
        assert (C : m * 2 ^ (52 - k) * 2 ^ (874 + k - 1) = m * 2 ^ 925).
        { rewrite <- Z.mul_assoc, <- Z.pow_add_r by lia. do 2 f_equal. lia. }
        rewrite C. destruct (s =? 0); ring.
    + assert (Hm' : 0 <= m * 2 ^ 29 < 2 ^ 52) by (change (2 ^ 52) with (2 ^ 23 * 2 ^ 29); split; [lia|]; apply Z.mul_lt_mono_pos_r; lia).
      split; [apply make_range; lia|]. rewrite num64_make by lia.
      destruct (e + 896 =? 2047) eqn:F; zcmp; [lia|]. destruct (e + 896 =? 0) eqn:G; zcmp; [lia|].
      f_equal. cbv zeta.
      assert (C : (2 ^ 52 + m * 2 ^ 29) * 2 ^ (e + 896 - 1) = (2 ^ 23 + m) * 2 ^ (e - 1) * 2 ^ 925).
      { replace (2 ^ 52 + m * 2 ^ 29) with ((2 ^ 23 + m) * 2 ^ 29) by ring.
        rewrite <- !Z.mul_assoc, <- !Z.pow_add_r by lia. do 2 f_equal. lia. }
      rewrite C. destruct (s =? 0); ring.
Qed.

Lemma int_double z : Z.abs z < 2 ^ 53 ->
  0 <= int_to_f64 z < 2 ^ 64 /\ num64 (int_to_f64 z) = Fin (z * 2 ^ 1074).
Proof.
  intros Hz. unfold int_to_f64. destruct (z =? 0) eqn:E; zcmp.
  - subst z. split; [lia|]. reflexivity.
  - set (s := if z <? 0 then 1 else 0). set (a := Z.abs z) in *. set (k := Z.log2 a).
    assert (Ha : 0 < a) by lia.
    assert (Hk : 0 <= k < 53).
    { split; [apply Z.log2_nonneg|]. apply Z.log2_lt_pow2; lia. }
    assert (Hs : s = 0 \/ s = 1) by (unfold s; destruct (z <? 0); auto).
    destruct (norm_mant a k ltac:(lia) ltac:(apply log2_range; lia)) as [A B].
    split; [apply make_range; lia|]. rewrite num64_make by lia.
    destruct (1023 + k =? 2047) eqn:F; zcmp; [lia|]. destruct (1023 + k =? 0) eqn:G; zcmp; [lia|].
    rewrite B. f_equal. cbv zeta.
    assert (C : a * 2 ^ (52 - k) * 2 ^ (1023 + k - 1) = a * 2 ^ 1074).
    { rewrite <- Z.mul_assoc, <- Z.pow_add_r by lia. do 2 f_equal. lia. }
    rewrite C. unfold s. destruct (z <? 0) eqn:N; zcmp; cbn [Z.eqb]; unfold a;
    [rewrite Z.abs_neq by lia | rewrite Z.abs_eq by lia]; ring.
Qed.

(** ** The loop *)

Lemma num_lt_le x y : x <> NaN -> y <> NaN -> num_lt x y = false -> num_le y x.
Proof. destruct x, y; cbn; intros; try congruence; auto; zcmp; lia. Qed.
Lemma num_lt_le' x y : num_lt x y = true -> num_le x y.
Proof. destruct x, y; cbn; intros; try congruence; auto; zcmp; lia. Qed.
Lemma num_le_refl x : x <> NaN -> num_le x x.
Proof. destruct x; cbn; auto; lia. Qed.
Lemma num_le_trans x y z : num_le x y -> num_le y z -> num_le x z.
Proof. destruct x, y, z; cbn; try tauto; lia. Qed.

Section Loop.
Context (lt : Z -> Z -> bool) (v : Z -> num) (data : Z -> res Z) (d : Z -> Z) (N : Z).
Context (Hd : forall i, 0 <= i < N -> data i = Ok (d i)).
Context (Hv : forall i, 0 <= i < N -> v (d i) <> NaN).
Context (Hlt : forall i j, 0 <= i < N -> 0 <= j < N -> lt (d i) (d j) = num_lt (v (d i)) (v (d j))).

(** [mn] and [mx] are the extrema of the elements below [n]. *)
Definition extr (n : Z) (mn mx : Z) : Prop :=
  (exists i, 0 <= i < N /\ mn = d i) /\ (exists i, 0 <= i < N /\ mx = d i) /\
  forall i, 0 <= i < n -> num_le (v mn) (v (d i)) /\ num_le (v (d i)) (v mx).

Lemma extr_step n mn mx i j :
  extr n mn mx -> 0 <= i < N -> 0 <= j < N -> num_le (v (d i)) (v (d j)) ->
  extr n (if lt (d i) mn then d i else mn) (if lt mx (d j) then d j else mx) /\
  num_le (v (if lt (d i) mn then d i else mn)) (v (d i)) /\
  num_le (v (d j)) (v (if lt mx (d j) then d j else mx)).
Proof.
  intros ((p & Hp & ->) & (q & Hq & ->) & B) Hi Hj Hij. rewrite !Hlt by assumption.
  assert (C1 : num_le (v (if num_lt (v (d i)) (v (d p)) then d i else d p)) (v (d i)) /\
               num_le (v (if num_lt (v (d i)) (v (d p)) then d i else d p)) (v (d p))).
  { destruct (num_lt (v (d i)) (v (d p))) eqn:E; split; try (apply num_le_refl; apply Hv; assumption).
    - apply num_lt_le'; assumption.
    - apply num_lt_le; auto. }
  assert (C2 : num_le (v (d j)) (v (if num_lt (v (d q)) (v (d j)) then d j else d q)) /\
               num_le (v (d q)) (v (if num_lt (v (d q)) (v (d j)) then d j else d q))).
  { destruct (num_lt (v (d q)) (v (d j))) eqn:E; split; try (apply num_le_refl; apply Hv; assumption).
    - apply num_lt_le'; assumption.
    - apply num_lt_le; auto. }
  destruct C1 as [C1 C1'], C2 as [C2 C2'].
  split; [|tauto]. split; [|split].
  - destruct (num_lt _ _); eauto.
  - destruct (num_lt (v (d q)) _); eauto.
  - intros k Hk. destruct (B k Hk). split; eapply num_le_trans; eassumption.
Qed.

Lemma loop_extr k : forall i mn mx,
  0 <= i -> 2 * (i + Z.of_nat k) <= N -> extr (2 * i) mn mx ->
  exists mn' mx', minmax_loop lt data k i mn mx = Ok (mn', mx') /\ extr (2 * (i + Z.of_nat k)) mn' mx'.
Proof.
  induction k as [|k IH]; intros i mn mx Hi Hk B; cbn [minmax_loop].
  - exists mn, mx. split; [reflexivity|]. rewrite Z.add_0_r. assumption.
  - rewrite !Hd by lia. cbn [rbind]. rewrite Hlt by lia.
    assert (Hx : exists p q, (p = 2 * i /\ q = 2 * i + 1 \/ p = 2 * i + 1 /\ q = 2 * i) /\
      (if num_lt (v (d (2 * i + 1))) (v (d (2 * i))) then (d (2 * i + 1), d (2 * i)) else (d (2 * i), d (2 * i + 1)))
      = (d p, d q) /\ num_le (v (d p)) (v (d q))).
    { destruct (num_lt _ _) eqn:E.
      - exists (2 * i + 1), (2 * i). split; [tauto|]. split; [reflexivity|]. apply num_lt_le'; assumption.
      - exists (2 * i), (2 * i + 1). split; [tauto|]. split; [reflexivity|]. apply num_lt_le; auto; apply Hv; lia. }
    destruct Hx as (p & q & Hpq & -> & Hle).
    destruct (extr_step (2 * i) mn mx p q B ltac:(lia) ltac:(lia) Hle) as ((S1 & S2 & S3) & S4 & S5).
    destruct (IH (i + 1) (if lt (d p) mn then d p else mn) (if lt mx (d q) then d q else mx)) as (mn' & mx' & E & F).
    + lia.
    + lia.
    + split; [assumption|]. split; [assumption|]. intros j Hj.
      destruct (Z_lt_dec j (2 * i)) as [Hlo|Hlo]; [apply S3; lia|].
      assert (Hc : j = p \/ j = q) by lia.
      destruct Hc as [->| ->]; split; try assumption; eapply num_le_trans; eassumption.
    + exists mn', mx'. split; [exact E|]. replace (i + Z.of_nat (S k)) with (i + 1 + Z.of_nat k) by lia. assumption.
Qed.

Lemma get_extr : 1 <= N ->
  exists mn mx, get_minmax lt data N = Ok (mn, mx) /\ extr N mn mx.
Proof.
  intros HN. unfold get_minmax. rewrite Hd by lia. cbn [rbind].
  assert (B0 : extr (2 * 0) (d 0) (d 0)).
  { split; [exists 0; split; [lia|reflexivity]|]. split; [exists 0; split; [lia|reflexivity]|]. lia. }
  pose proof (Z.div_mod N 2 ltac:(lia)) as DM. destruct (bit_cases N) as [E|E]; rewrite E in *; cbn [Z.eqb negb Pos.eqb].
  - destruct (loop_extr (Z.to_nat (N / 2)) 0 (d 0) (d 0)) as (mn & mx & F & G); [lia|lia|exact B0|].
    rewrite F. cbn [rbind]. exists mn, mx. split; [reflexivity|]. replace N with (2 * (0 + Z.of_nat (Z.to_nat (N / 2)))) at 1 by lia. assumption.
  - assert (E1 : (N - 1) / 2 = N / 2) by (symmetry; apply Z.div_unique with 0; lia).
    rewrite E1. destruct (loop_extr (Z.to_nat (N / 2)) 0 (d 0) (d 0)) as (mn & mx & F & G); [lia|lia|exact B0|].
    rewrite F. cbn [rbind]. rewrite Hd by lia. cbn [rbind].
    replace (2 * (0 + Z.of_nat (Z.to_nat (N / 2)))) with (N - 1) in G by lia.
    destruct (extr_step (N - 1) mn mx (N - 1) (N - 1) G ltac:(lia) ltac:(lia)) as (S & S4 & S5).
    { apply num_le_refl, Hv. lia. }
    destruct (lt (d (N - 1)) mn) eqn:L1.
    + exists (d (N - 1)), mx. split; [reflexivity|].
      destruct G as ((p & Hp & ->) & (q & Hq & ->) & B). destruct S as (S1 & _ & S3).
      split; [assumption|]. split; [eauto|].
      intros i Hi. destruct (Z_lt_dec i (N - 1)) as [Hl|Hl].
      * split; [apply S3; lia|]. apply B. lia.
      * replace i with (N - 1) by lia. split; [assumption|].
        destruct (Z_lt_dec 0 (N - 1)) as [H0|H0].
        -- eapply num_le_trans; [|apply (B 0); lia].
           eapply num_le_trans; [|apply (B 0); lia]. apply num_lt_le'. rewrite <- Hlt by lia. assumption.
        -- (* one element: it is not below itself *)
           assert (p = N - 1) by lia. subst p. rewrite Hlt in L1 by lia.
           destruct (v (d (N - 1))); cbn in L1; try congruence. rewrite Z.ltb_irrefl in L1. congruence.
    + destruct (lt mx (d (N - 1))) eqn:L2.
      * exists mn, (d (N - 1)). split; [reflexivity|]. destruct S as (S1 & S2 & S3).
        split; [assumption|]. split; [assumption|]. intros i Hi.
        destruct (Z_lt_dec i (N - 1)) as [Hl|Hl]; [apply S3; lia|]. replace i with (N - 1) by lia. split; assumption.
      * exists mn, mx. split; [reflexivity|]. destruct S as (S1 & S2 & S3).
        split; [assumption|]. split; [assumption|]. intros i Hi.
        destruct (Z_lt_dec i (N - 1)) as [Hl|Hl]; [apply S3; lia|]. replace i with (N - 1) by lia. split; assumption.
Qed.
End Loop.

(** ** minmax *)

Lemma num_lt_scale k x y : 0 < k -> num_lt (scale k x) (scale k y) = num_lt x y.
Proof.
  intros Hk. destruct x as [| |a|], y as [| |b|]; cbn; try reflexivity.
  destruct (a <? b) eqn:E; zcmp; [apply Z.ltb_lt | apply Z.ltb_ge]; nia.
Qed.

Lemma element_len w blk n i :
  Z.of_nat (length blk) = n * w -> 0 <= w -> 0 <= i < n -> length (element w blk i) = Z.to_nat w.
Proof. intros H Hw Hi. unfold element. rewrite firstn_length, skipn_length. nia. Qed.

Lemma elem_eq buf blk w n i :
  holds buf blk -> Z.of_nat (length blk) = n * w -> 0 <= w -> 0 <= i < n ->
  elem buf w i = Ok (unle (element w blk i)).
Proof.
  intros H Hl Hw Hi. unfold elem. rewrite (peek_holds buf blk) by (try assumption; nia). cbn [rbind].
  unfold element. rewrite (Z.mul_comm w i). reflexivity.
Qed.

Lemma signed_range n b : 0 < n -> 0 <= b < 2 ^ n -> Z.abs (signed n b) <= 2 ^ (n - 1).
Proof.
  intros Hn Hb. unfold signed. replace (2 ^ n) with (2 * 2 ^ (n - 1)) in * by (rewrite <- Z.pow_succ_r by lia; f_equal; lia).
  destruct (b <? _) eqn:E; zcmp; lia.
Qed.

(** From the extrema of the patterns to those of the numbers. *)
Lemma extr_extrema type n blk (d : Z -> Z) (conv : Z -> Z) a b :
  (forall i, d i = unle (element (width type) blk i)) ->
  (forall i, 0 <= i < n -> 0 <= conv (d i) < 2 ^ 64 /\ num64 (conv (d i)) = number type (d i)) ->
  extr (number type) d n n a b -> extrema type n blk (conv a) (conv b).
Proof.
  intros Hd Hc ((p & Hp & ->) & (q & Hq & ->) & B). unfold extrema, value.
  destruct (Hc p Hp) as [R1 E1], (Hc q Hq) as [R2 E2].
  split; [assumption|]. split; [assumption|].
  split; [exists p; split; [assumption|]; rewrite E1, Hd; reflexivity|].
  split; [exists q; split; [assumption|]; rewrite E2, Hd; reflexivity|].
  intros i Hi. rewrite E1, E2, <- Hd. apply B. assumption.
Qed.

Lemma minmax_ok type n buf blk :
  block type n blk -> holds buf blk -> (forall i, 0 <= i < n -> value type blk i <> NaN) ->
  exists mn mx, minmax type buf n = Ok (mn, mx) /\ extrema type n blk mn mx.
Proof.
  intros (Ht & Hn & Hl) Hh Hv.
  set (d := fun i => unle (element (width type) blk i)).
  assert (Hd : forall i, d i = unle (element (width type) blk i)) by reflexivity.
  assert (HvN : forall i, 0 <= i < n -> number type (d i) <> NaN) by exact Hv.
  assert (Hw : 0 <= width type) by (assert (type = 1 \/ type = 2 \/ type = 3 \/ type = 4 \/ type = 5) as Hc by lia;
    destruct Hc as [->|[->|[->|[->| ->]]]]; cbn; lia).
  assert (He : forall i, 0 <= i < n -> elem buf (width type) i = Ok (d i)).
  { intros i Hi. apply (elem_eq buf blk _ n); assumption. }
  assert (Hr : forall i, 0 <= i < n -> 0 <= d i < 256 ^ width type).
  { intros i Hi. unfold d. pose proof (unle_range (element (width type) blk i)) as R.
    rewrite (element_len _ _ n) in R by assumption. rewrite Z2Nat.id in R by assumption. exact R. }
  clearbody d. unfold minmax.
  assert (Hc : type = 1 \/ type = 2 \/ type = 3 \/ type = 4 \/ type = 5) by lia.
  destruct Hc as [->|[->|[->|[->| ->]]]]; cbn [Z.eqb Pos.eqb TEC_FLOAT TEC_DOUBLE TEC_LONGINT TEC_SHORTINT TEC_BYTE];
  cbn [width] in He, Hr.
  - change (256 ^ 4) with (2 ^ 32) in Hr.
    destruct (get_extr lt_float (number 1) (elem buf 4) d n He HvN) as (a & b & E & F); [|lia|].
    { intros i j Hi Hj. unfold lt_float. cbn [number]. rewrite num_lt_scale; [reflexivity|]. apply Z.pow_pos_nonneg; lia. }
    rewrite E. cbn [rbind]. exists (f32_to_f64 a), (f32_to_f64 b). split; [reflexivity|].
    apply (extr_extrema 1 n blk d f32_to_f64 a b); [exact Hd| |exact F].
    intros i Hi. apply float_double; [apply Hr | apply HvN]; assumption.
  - change (256 ^ 8) with (2 ^ 64) in Hr.
    destruct (get_extr lt_double (number 2) (elem buf 8) d n He HvN) as (a & b & E & F); [reflexivity|lia|].
    rewrite E. exists a, b. split; [reflexivity|].
    apply (extr_extrema 2 n blk d (fun x => x) a b); [exact Hd| |exact F].
    intros i Hi. split; [apply Hr; assumption|reflexivity].
  - change (256 ^ 4) with (2 ^ 32) in Hr.
    destruct (get_extr (lt_signed 32) (number 3) (elem buf 4) d n He HvN) as (a & b & E & F); [|lia|].
    { intros i j Hi Hj. unfold lt_signed, number.
      change (Fin (signed 32 (d i) * 2 ^ 1074)) with (scale (2 ^ 1074) (Fin (signed 32 (d i)))).
      change (Fin (signed 32 (d j) * 2 ^ 1074)) with (scale (2 ^ 1074) (Fin (signed 32 (d j)))).
      rewrite num_lt_scale; [reflexivity|]. apply Z.pow_pos_nonneg; lia. }
    rewrite E. cbn [rbind]. eexists _, _. split; [reflexivity|].
    apply (extr_extrema 3 n blk d (fun x => int_to_f64 (signed 32 x)) a b); [exact Hd| |exact F].
    intros i Hi. apply int_double. eapply Z.le_lt_trans; [apply signed_range; [lia | apply Hr; assumption]|]. reflexivity.
  - change (256 ^ 2) with (2 ^ 16) in Hr.
    destruct (get_extr (lt_signed 16) (number 4) (elem buf 2) d n He HvN) as (a & b & E & F); [|lia|].
    { intros i j Hi Hj. unfold lt_signed, number.
      change (Fin (signed 16 (d i) * 2 ^ 1074)) with (scale (2 ^ 1074) (Fin (signed 16 (d i)))).
      change (Fin (signed 16 (d j) * 2 ^ 1074)) with (scale (2 ^ 1074) (Fin (signed 16 (d j)))).
      rewrite num_lt_scale; [reflexivity|]. apply Z.pow_pos_nonneg; lia. }
    rewrite E. cbn [rbind]. eexists _, _. split; [reflexivity|].
    apply (extr_extrema 4 n blk d (fun x => int_to_f64 (signed 16 x)) a b); [exact Hd| |exact F].
    intros i Hi. apply int_double. eapply Z.le_lt_trans; [apply signed_range; [lia | apply Hr; assumption]|]. reflexivity.
  - change (256 ^ 1) with (2 ^ 8) in Hr.
    destruct (get_extr (lt_signed 8) (number 5) (elem buf 1) d n He HvN) as (a & b & E & F); [|lia|].
    { intros i j Hi Hj. unfold lt_signed, number.
      change (Fin (signed 8 (d i) * 2 ^ 1074)) with (scale (2 ^ 1074) (Fin (signed 8 (d i)))).
      change (Fin (signed 8 (d j) * 2 ^ 1074)) with (scale (2 ^ 1074) (Fin (signed 8 (d j)))).
      rewrite num_lt_scale; [reflexivity|]. apply Z.pow_pos_nonneg; lia. }
    rewrite E. cbn [rbind]. eexists _, _. split; [reflexivity|].
    apply (extr_extrema 5 n blk d (fun x => int_to_f64 (signed 8 x)) a b); [exact Hd| |exact F].
    intros i Hi. apply int_double. eapply Z.le_lt_trans; [apply signed_range; [lia | apply Hr; assumption]|]. reflexivity.
Qed.

(** ** minmax also ends for data with NaN *)

Section Total.
Context (lt : Z -> Z -> bool) (data : Z -> res Z) (d : Z -> Z) (N : Z).
Context (Hd : forall i, 0 <= i < N -> data i = Ok (d i)).

Definition from_data (x : Z) : Prop := exists i, 0 <= i < N /\ x = d i.

Lemma loop_total k : forall i mn mx,
  0 <= i -> 2 * (i + Z.of_nat k) <= N -> from_data mn -> from_data mx ->
  exists mn' mx', minmax_loop lt data k i mn mx = Ok (mn', mx') /\ from_data mn' /\ from_data mx'.
Proof.
  induction k as [|k IH]; intros i mn mx Hi Hk H1 H2; cbn [minmax_loop].
  - eauto.
  - rewrite !Hd by lia. cbn [rbind].
    assert (F1 : from_data (d (2 * i))) by (exists (2 * i); split; [lia|reflexivity]).
    assert (F2 : from_data (d (2 * i + 1))) by (exists (2 * i + 1); split; [lia|reflexivity]).
    destruct (lt (d (2 * i + 1)) (d (2 * i))); apply IH; try lia; match goal with |- from_data (if ?b then _ else _) => destruct b end; assumption.
Qed.

Lemma get_total : 1 <= N ->
  exists mn mx, get_minmax lt data N = Ok (mn, mx) /\ from_data mn /\ from_data mx.
Proof.
  intros HN. unfold get_minmax. rewrite Hd by lia. cbn [rbind].
  assert (F0 : from_data (d 0)) by (exists 0; split; [lia|reflexivity]).
  pose proof (Z.div_mod N 2 ltac:(lia)) as DM. destruct (bit_cases N) as [E|E]; rewrite E in *; cbn [Z.eqb negb Pos.eqb].
  - destruct (loop_total (Z.to_nat (N / 2)) 0 (d 0) (d 0)) as (mn & mx & F & G1 & G2); [lia|lia|exact F0|exact F0|].
    rewrite F. cbn [rbind]. eauto.
  - assert (E1 : (N - 1) / 2 = N / 2) by (symmetry; apply Z.div_unique with 0; lia).
    rewrite E1. destruct (loop_total (Z.to_nat (N / 2)) 0 (d 0) (d 0)) as (mn & mx & F & G1 & G2); [lia|lia|exact F0|exact F0|].
    rewrite F. cbn [rbind]. rewrite Hd by lia. cbn [rbind].
    assert (F1 : from_data (d (N - 1))) by (exists (N - 1); split; [lia|reflexivity]).
    destruct (lt (d (N - 1)) mn); [eauto|]. destruct (lt mx (d (N - 1))); eauto.
Qed.
End Total.

Lemma f32_range b : 0 <= b < 2 ^ 32 -> 0 <= f32_to_f64 b < 2 ^ 64.
Proof.
  intros Hb. destruct (number 1 b) eqn:E.
  2-4: apply float_double; [assumption | congruence].
  unfold number, num32, fnum, scale, f32_to_f64 in *. change (2 ^ (8 + 23)) with (2 ^ 31) in E. change (2 ^ 8 - 1) with 255 in E.
  set (s := b / 2 ^ 31 mod 2) in *. set (e := b / 2 ^ 23 mod 2 ^ 8) in *. set (m := b mod 2 ^ 23) in *.
  assert (Hs : s = 0 \/ s = 1) by apply bit_cases.
  assert (Hm : 0 <= m < 2 ^ 23) by (apply Z.mod_pos_bound; lia).
  destruct (e =? 255); [|congruence]. destruct (m =? 0); [apply make_range; lia|].
  change (2 ^ 51) with (2 ^ 22 * 2 ^ 29). apply make_range; [assumption|lia|].
  change (2 ^ 52) with (2 ^ 23 * 2 ^ 29). change (2 ^ 22) with 4194304 in *. change (2 ^ 23) with 8388608 in *. change (2 ^ 29) with 536870912.
  destruct (m <? 4194304) eqn:F; zcmp; lia.
Qed.

Lemma minmax_total type n buf blk :
  block type n blk -> holds buf blk ->
  exists mn mx, minmax type buf n = Ok (mn, mx) /\ 0 <= mn < 2 ^ 64 /\ 0 <= mx < 2 ^ 64.
Proof.
  intros (Ht & Hn & Hl) Hh.
  set (d := fun i => unle (element (width type) blk i)).
  assert (Hw : 0 <= width type) by (assert (type = 1 \/ type = 2 \/ type = 3 \/ type = 4 \/ type = 5) as Hc by lia;
    destruct Hc as [->|[->|[->|[->| ->]]]]; cbn; lia).
  assert (He : forall i, 0 <= i < n -> elem buf (width type) i = Ok (d i)).
  { intros i Hi. apply (elem_eq buf blk _ n); assumption. }
  assert (Hr : forall x, from_data d n x -> 0 <= x < 256 ^ width type).
  { intros x (i & Hi & ->). unfold d. pose proof (unle_range (element (width type) blk i)) as R.
    rewrite (element_len _ _ n) in R by assumption. rewrite Z2Nat.id in R by assumption. exact R. }
  clearbody d. unfold minmax.
  assert (Hc : type = 1 \/ type = 2 \/ type = 3 \/ type = 4 \/ type = 5) by lia.
  destruct Hc as [->|[->|[->|[->| ->]]]]; cbn [Z.eqb Pos.eqb TEC_FLOAT TEC_DOUBLE TEC_LONGINT TEC_SHORTINT TEC_BYTE];
  cbn [width] in He, Hr.
  - destruct (get_total lt_float (elem buf 4) d n He Hn) as (a & b & E & F & G). rewrite E. cbn [rbind].
    eexists _, _. split; [reflexivity|]. split; apply f32_range; apply Hr; assumption.
  - destruct (get_total lt_double (elem buf 8) d n He Hn) as (a & b & E & F & G). rewrite E.
    eexists _, _. split; [reflexivity|]. split; apply Hr; assumption.
  - destruct (get_total (lt_signed 32) (elem buf 4) d n He Hn) as (a & b & E & F & G). rewrite E. cbn [rbind].
    eexists _, _. split; [reflexivity|]. apply Hr in F, G. change (256 ^ 4) with (2 ^ 32) in *.
    split; apply int_double; (eapply Z.le_lt_trans; [apply signed_range; [lia | eassumption]|]; reflexivity).
  - destruct (get_total (lt_signed 16) (elem buf 2) d n He Hn) as (a & b & E & F & G). rewrite E. cbn [rbind].
    eexists _, _. split; [reflexivity|]. apply Hr in F, G. change (256 ^ 2) with (2 ^ 16) in *.
    split; apply int_double; (eapply Z.le_lt_trans; [apply signed_range; [lia | eassumption]|]; reflexivity).
  - destruct (get_total (lt_signed 8) (elem buf 1) d n He Hn) as (a & b & E & F & G). rewrite E. cbn [rbind].
    eexists _, _. split; [reflexivity|]. apply Hr in F, G. change (256 ^ 1) with (2 ^ 8) in *.
    split; apply int_double; (eapply Z.le_lt_trans; [apply signed_range; [lia | eassumption]|]; reflexivity).
Qed.
