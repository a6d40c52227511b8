(** A printed [double] is read back as the [double] nearest to the printed decimal number, which is near
    the original. *)

From Coq Require Import ZArith Ascii String List Bool Lia.
From Verif Require Import Base M_Bytes M_Scan L_Base L_Text L_TecMin L_Plt L_Scan.
Import ListNotations.
Open Scope string_scope.
Open Scope Z_scope.

(** ** Rounding *)

Lemma round_div_spec x y : 0 <= x -> 0 < y -> 0 <= round_div x y /\ 2 * Z.abs (round_div x y * y - x) <= y.
Proof.
  intros Hx Hy. unfold round_div. pose proof (Z.div_mod x y ltac:(lia)) as E. pose proof (Z.mod_pos_bound x y Hy).
  pose proof (Z.div_pos x y Hx Hy). cbv zeta.
  destruct (_ <? _) eqn:A; zcmp; [split; [lia|]; nia|].
  destruct (y <? _) eqn:B; zcmp; [split; [lia|]; nia|].
  destruct (Z.even _); (split; [lia|]; nia).
Qed.
Lemma round_div_up x y c : 0 <= x -> 0 < y -> x <= c * y -> round_div x y <= c.
Proof. intros Hx Hy H. destruct (round_div_spec x y Hx Hy) as [_ S]. nia. Qed.
Lemma round_div_up' x y c : 0 <= x -> 0 < y -> 2 * x < (2 * c + 1) * y -> round_div x y <= c.
Proof. intros Hx Hy H. destruct (round_div_spec x y Hx Hy) as [_ S]. nia. Qed.
Lemma round_div_low x y c : 0 <= x -> 0 < y -> c * y <= x -> c <= round_div x y.
Proof. intros Hx Hy H. destruct (round_div_spec x y Hx Hy) as [_ S]. nia. Qed.

(** A power with an exponent of any sign as a fraction. *)
Definition pw (B e : Z) : Z := B ^ Z.max 0 e.
Lemma pw_pos B e : 0 < B -> 0 < pw B e.
Proof. intros. unfold pw. apply Z.pow_pos_nonneg; lia. Qed.
Lemma pw_add B e d : 0 < B -> 0 <= d -> pw B (e + d) * pw B (- e) = B ^ d * pw B e * pw B (- (e + d)).
Proof.
  intros HB Hd. unfold pw. rewrite <- !Z.pow_add_r by lia. f_equal. lia.
Qed.

Lemma exp2_spec a b : 0 < a -> 0 < b ->
  let e := Z.log2 a - Z.log2 b in
  let e := if a * 2 ^ Z.max 0 (- e) <? b * 2 ^ Z.max 0 e then e - 1 else e in
  b * pw 2 e <= a * pw 2 (- e) /\ a * pw 2 (- (e + 1)) < b * pw 2 (e + 1).
Proof.
  intros Ha Hb. cbv zeta. destruct (Z.log2_spec a Ha) as [A1 A2]. destruct (Z.log2_spec b Hb) as [B1 B2].
  pose proof (Z.log2_nonneg a). pose proof (Z.log2_nonneg b).
  set (la := Z.log2 a) in *. set (lb := Z.log2 b) in *.
  assert (U : a * pw 2 (- (la - lb + 1)) < b * pw 2 (la - lb + 1)).
  { unfold pw. destruct (Z_le_gt_dec 0 (la - lb + 1)).
    - rewrite (Z.max_l 0 (- (la - lb + 1))), (Z.max_r 0 (la - lb + 1)) by lia. change (2 ^ 0) with 1.
      assert (E : 2 ^ Z.succ la = 2 ^ lb * 2 ^ (la - lb + 1)) by (rewrite <- Z.pow_add_r by lia; f_equal; lia).
      pose proof (Z.pow_pos_nonneg 2 (la - lb + 1) ltac:(lia) ltac:(lia)). nia.
    - rewrite (Z.max_r 0 (- (la - lb + 1))), (Z.max_l 0 (la - lb + 1)) by lia. change (2 ^ 0) with 1.
      assert (E : 2 ^ lb = 2 ^ Z.succ la * 2 ^ (- (la - lb + 1))) by (rewrite <- Z.pow_add_r by lia; f_equal; lia).
      pose proof (Z.pow_pos_nonneg 2 (- (la - lb + 1)) ltac:(lia) ltac:(lia)). nia. }
  assert (L : b * pw 2 (la - lb - 1) <= a * pw 2 (- (la - lb - 1))).
  { unfold pw. destruct (Z_le_gt_dec 0 (la - lb - 1)).
    - rewrite (Z.max_l 0 (- (la - lb - 1))), (Z.max_r 0 (la - lb - 1)) by lia. change (2 ^ 0) with 1.
      assert (E : 2 ^ la = 2 ^ Z.succ lb * 2 ^ (la - lb - 1)) by (rewrite <- Z.pow_add_r by lia; f_equal; lia).
      pose proof (Z.pow_pos_nonneg 2 (la - lb - 1) ltac:(lia) ltac:(lia)). nia.
    - rewrite (Z.max_r 0 (- (la - lb - 1))), (Z.max_l 0 (la - lb - 1)) by lia. change (2 ^ 0) with 1.
      assert (E : 2 ^ Z.succ lb = 2 ^ la * 2 ^ (- (la - lb - 1))) by (rewrite <- Z.pow_add_r by lia; f_equal; lia).
      pose proof (Z.pow_pos_nonneg 2 (- (la - lb - 1)) ltac:(lia) ltac:(lia)). nia. }
  fold (pw 2 (- (la - lb))) (pw 2 (la - lb)).
  destruct (_ <? _) eqn:E; zcmp.
  - split; [exact L|]. replace (la - lb - 1 + 1) with (la - lb) by lia. exact E.
  - split; [lia|exact U].
Qed.

(** ** The bit pattern *)

Lemma num64_bits k m : 0 <= k -> (k = 0 /\ 0 <= m \/ 2 ^ 52 <= m) -> m <= 2 ^ 53 -> k * 2 ^ 52 + m < 2047 * 2 ^ 52 ->
  num64 (k * 2 ^ 52 + m) = Fin (m * 2 ^ k).
Proof.
  intros Hk Hm Hm' H. unfold num64, fnum. cbv zeta.
  change (2 ^ (11 + 52)) with (2 ^ 11 * 2 ^ 52).
  assert (E53 : 2 ^ 53 = 2 * 2 ^ 52) by reflexivity. rewrite E53 in Hm'. clear E53.
  assert (P52 : 0 < 2 ^ 52) by reflexivity.
  change (2 ^ 11) with 2048. revert P52 Hm Hm' H. generalize (2 ^ 52). intros p P52 Hm Hm' H.
  replace ((k * p + m) / (2048 * p)) with 0 by (symmetry; apply Z.div_small; nia).
  change (0 mod 2) with 0. change (0 =? 0) with true. cbv iota.
  assert (C : (k = 0 /\ m < p) \/ (p <= m < 2 * p) \/ m = 2 * p) by lia.
  destruct C as [[-> C]|[C| -> ]].
  - assert (R : 0 <= m < p) by (clear H; destruct Hm; lia). replace (0 * p + m) with m by lia.
    rewrite (Z.div_small m p R), (Z.mod_small m p R). rewrite Z.mod_0_l by lia.
    change (0 =? 2048 - 1) with false. change (0 =? 0) with true. cbv iota. rewrite Z.pow_0_r, Z.mul_1_r. reflexivity.
  - assert (E1 : (k * p + m) / p = k + 1) by (symmetry; apply (Z.div_unique _ _ _ (m - p)); nia).
    assert (E2 : (k * p + m) mod p = m - p) by (symmetry; apply (Z.mod_unique _ _ (k + 1)); nia).
    rewrite E1, E2. rewrite Z.mod_small by nia. destruct (k + 1 =? 2048 - 1) eqn:A; zcmp; [nia|].
    destruct (k + 1 =? 0) eqn:B; zcmp; [lia|]. f_equal. replace (k + 1 - 1) with k by lia. f_equal. lia.
  - assert (E1 : (k * p + 2 * p) / p = k + 2) by (symmetry; apply (Z.div_unique _ _ _ 0); nia).
    assert (E2 : (k * p + 2 * p) mod p = 0) by (symmetry; apply (Z.mod_unique _ _ (k + 2)); nia).
    rewrite E1, E2. rewrite Z.mod_small by nia. destruct (k + 2 =? 2048 - 1) eqn:A; zcmp; [nia|].
    destruct (k + 2 =? 0) eqn:B; zcmp; [lia|]. f_equal. replace (k + 2 - 1) with (Z.succ k) by lia. rewrite Z.pow_succ_r by lia. lia.
Qed.

(** The largest finite [double], in units of the smallest. *)
Definition DMAX : Z := (2 ^ 53 - 1) * 2 ^ 971.
Definition U : Z := 2 ^ 1074.
Lemma U_pos : 0 < U.
Proof. unfold U. apply Z.pow_pos_nonneg; lia. Qed.

Lemma round_f64_spec a b : 0 <= a -> 0 < b -> a <= DMAX * b ->
  exists w, num64 (round_f64 a b) = Fin w /\ 0 <= w /\ 0 <= round_f64 a b < 2 ^ 63 /\
    2 ^ 53 * Z.abs (w * b - a * U) <= b * 2 ^ 52 + a * U.
Proof.
  intros Ha Hb HM. unfold round_f64. destruct (a =? 0) eqn:E0; zcmp.
  { subst a. exists 0. split; [reflexivity|]. split; [lia|]. split; [split; [lia|reflexivity]|]. change (Z.abs (0 * b - 0 * U)) with 0.
    rewrite Z.mul_0_l, Z.mul_0_r, Z.add_0_r. clear -Hb. pose proof (Z.pow_pos_nonneg 2 52 ltac:(lia) ltac:(lia)). nia. }
  destruct (exp2_spec a b ltac:(lia) Hb) as [F1 F2]. cbv zeta in F1, F2. cbv zeta.
  set (e := if a * 2 ^ Z.max 0 (- (Z.log2 a - Z.log2 b)) <? b * 2 ^ Z.max 0 (Z.log2 a - Z.log2 b)
            then Z.log2 a - Z.log2 b - 1 else Z.log2 a - Z.log2 b) in *. clearbody e.
  set (ex := Z.max (e - 52) (-1074)). fold (pw 2 (- ex)) (pw 2 ex).
  set (P := pw 2 ex). set (N := pw 2 (- ex)). set (k := ex + 1074). set (K := 2 ^ k).
  assert (HP : 0 < P) by (apply pw_pos; lia). assert (HN : 0 < N) by (apply pw_pos; lia).
  assert (Hk : 0 <= k) by (unfold k, ex; lia). assert (HK : 0 < K) by (apply Z.pow_pos_nonneg; lia).
  assert (HU : P * U = K * N).
  { pose proof (pw_add 2 (-1074) k ltac:(lia) Hk) as H. replace (-1074 + k) with ex in H by (unfold k; lia).
    change (pw 2 (- -1074)) with U in H. change (pw 2 (-1074)) with 1 in H. fold P N K in H. lia. }
  destruct (round_div_spec (a * N) (b * P)) as [M0 MS]; [nia|nia|].
  set (m := round_div (a * N) (b * P)) in *.
  (* bounds of m *)
  assert (P53 : 0 < 2 ^ 53) by reflexivity.
  assert (UP : a * N <= 2 ^ 53 * (b * P)).
  { pose proof (pw_add 2 (e + 1) (ex + 53 - (e + 1)) ltac:(lia) ltac:(unfold ex; lia)) as H1.
    replace (e + 1 + (ex + 53 - (e + 1))) with (ex + 53) in H1 by lia.
    pose proof (pw_add 2 ex 53 ltac:(lia) ltac:(lia)) as H2. fold P N in H2.
    pose proof (pw_pos 2 (e + 1) ltac:(lia)) as Q1. pose proof (pw_pos 2 (- (e + 1)) ltac:(lia)) as Q2.
    pose proof (pw_pos 2 (ex + 53) ltac:(lia)) as Q3. pose proof (pw_pos 2 (- (ex + 53)) ltac:(lia)) as Q4.
    assert (Q5 : 1 <= 2 ^ (ex + 53 - (e + 1))) by (apply (Z.pow_le_mono_r 2 0); unfold ex; lia).
    set (p1 := pw 2 (e + 1)) in *. set (n1 := pw 2 (- (e + 1))) in *. set (p2 := pw 2 (ex + 53)) in *. set (n2 := pw 2 (- (ex + 53))) in *.
    set (D := 2 ^ (ex + 53 - (e + 1))) in *.
    (* a/b < p1/n1 <= p2/n2 = 2^53 P/N *)
    assert (G : a * n2 <= b * p2).
    { apply (Z.mul_le_mono_pos_r _ _ n1 Q2). replace (b * p2 * n1) with (b * (p2 * n1)) by ring. rewrite H1.
      replace (b * (D * p1 * n2)) with (D * (b * p1) * n2) by ring. replace (a * n2 * n1) with (a * n1 * n2) by ring.
      apply Z.mul_le_mono_nonneg_r; [lia|]. nia. }
    apply (Z.mul_le_mono_pos_r _ _ n2 Q4). replace (2 ^ 53 * (b * P) * n2) with (b * (2 ^ 53 * P * n2)) by ring. rewrite <- H2.
    replace (a * N * n2) with (a * n2 * N) by ring. replace (b * (p2 * N)) with (b * p2 * N) by ring.
    apply Z.mul_le_mono_nonneg_r; lia. }
  assert (Mup : m <= 2 ^ 53) by (apply round_div_up; [nia|nia|exact UP]).
  assert (LOW : 0 < k -> 2 ^ 52 * (b * P) <= a * N).
  { intros Hk'. assert (Eex : e = ex + 52) by (unfold k, ex in *; lia).
    pose proof (pw_add 2 ex 52 ltac:(lia) ltac:(lia)) as H2. fold P N in H2. rewrite <- Eex in H2.
    pose proof (pw_pos 2 (- e) ltac:(lia)) as Q2. set (p1 := pw 2 e) in *. set (n1 := pw 2 (- e)) in *.
    apply (Z.mul_le_mono_pos_r _ _ n1 Q2). replace (2 ^ 52 * (b * P) * n1) with (b * (2 ^ 52 * P * n1)) by ring. rewrite <- H2.
    replace (b * (p1 * N)) with (b * p1 * N) by ring. replace (a * N * n1) with (a * n1 * N) by ring.
    apply Z.mul_le_mono_nonneg_r; lia. }
  assert (Mlow : k = 0 /\ 0 <= m \/ 2 ^ 52 <= m).
  { destruct (Z.eq_dec k 0) as [->|Hn]; [left; auto|right]. apply round_div_low; [nia|nia|]. apply LOW. lia. }
  (* no overflow *)
  assert (Hexp : k <= 2045).
  { destruct (Z_le_gt_dec k 2045); [assumption|exfalso]. specialize (LOW ltac:(lia)).
    assert (E1 : 2 ^ 52 * P > DMAX * N).
    { unfold P, N, pw. rewrite (Z.max_l 0 (- ex)), (Z.max_r 0 ex) by (unfold k in *; lia). change (2 ^ 0) with 1.
      assert (2 ^ 972 <= 2 ^ ex) by (apply Z.pow_le_mono_r; unfold k in *; lia).
      assert (DMAX < 2 ^ 52 * 2 ^ 972) by (apply Z.ltb_lt; vm_compute; reflexivity).
      assert (0 < 2 ^ 52) by reflexivity. revert H H0 H1. generalize (2 ^ 52), (2 ^ 972), (2 ^ ex), DMAX. clear. intros. nia. }
    revert LOW E1 HM. clear -HN HP Hb. generalize (2 ^ 52), DMAX. intros. assert (a * N <= z0 * b * N) by nia. nia. }
  assert (Htop : k * 2 ^ 52 + m < 2047 * 2 ^ 52).
  { destruct (Z.eq_dec k 2045) as [E|E].
    - assert (m <= 2 ^ 53 - 1).
      { apply round_div_up; [nia|nia|]. unfold N, P, pw. rewrite (Z.max_l 0 (- ex)), (Z.max_r 0 ex) by (unfold k in *; lia).
        replace ex with 971 by (unfold k in *; lia). change (2 ^ 0) with 1. unfold DMAX in HM. rewrite Z.mul_1_r.
        replace ((2 ^ 53 - 1) * (b * 2 ^ 971)) with ((2 ^ 53 - 1) * 2 ^ 971 * b) by ring. exact HM. }
      rewrite E. change (2 ^ 53) with (2 * 2 ^ 52) in H. revert H. assert (0 < 2 ^ 52) by reflexivity. revert H. generalize (2 ^ 52). clear. intros. lia.
    - change (2 ^ 53) with (2 * 2 ^ 52) in Mup. revert Mup. assert (G : 0 < 2 ^ 52) by reflexivity. revert G. generalize (2 ^ 52).
      intros q G Mup. assert (k <= 2044) by lia. nia. }
  rewrite Z.min_l by lia.
  exists (m * K). split; [apply num64_bits; assumption|]. split; [nia|]. split.
  { change (2 ^ 63) with (2048 * 2 ^ 52). assert (G : 0 < 2 ^ 52) by reflexivity. revert G Htop. generalize (2 ^ 52). clear -Hk M0. intros. nia. }
  (* error *)
  assert (ER : 2 * Z.abs (m * K * b - a * U) <= b * K).
  { apply (Z.mul_le_mono_pos_r _ _ N HN). replace (b * K * N) with (b * (K * N)) by ring. rewrite <- HU.
    replace (b * (P * U)) with ((b * P) * U) by ring.
    replace (2 * Z.abs (m * K * b - a * U) * N) with (2 * Z.abs (m * (b * P) - a * N) * U).
    - apply Z.mul_le_mono_nonneg_r; [pose proof U_pos; lia|]. replace (m * (b * P) - a * N) with (m * (b * P) - a * N) by ring. exact MS.
    - pose proof U_pos. rewrite <- !Z.mul_assoc. f_equal. rewrite <- (Z.abs_eq N) at 2 by lia. rewrite <- (Z.abs_eq U) at 1 by lia.
      rewrite <- !Z.abs_mul. f_equal. replace ((m * (b * P) - a * N) * U) with (m * b * (P * U) - a * N * U) by ring. rewrite HU. ring. }
  change (2 ^ 53) with (2 ^ 52 * 2). assert (P52 : 0 < 2 ^ 52) by reflexivity.
  destruct (Z.eq_dec k 0) as [Ek|Ek].
  - replace K with 1 in * by (unfold K; rewrite Ek; reflexivity). revert ER P52. generalize (2 ^ 52). clear -Ha Hb. pose proof U_pos. intros. nia.
  - specialize (LOW ltac:(lia)). assert (L2 : 2 ^ 52 * (b * K) <= a * U).
    { apply (Z.mul_le_mono_pos_r _ _ N HN). replace (2 ^ 52 * (b * K) * N) with (2 ^ 52 * b * (K * N)) by ring. rewrite <- HU.
      replace (2 ^ 52 * b * (P * U)) with (2 ^ 52 * (b * P) * U) by ring. replace (a * U * N) with (a * N * U) by ring.
      apply Z.mul_le_mono_nonneg_r; [pose proof U_pos; lia|exact LOW]. }
    revert ER L2 P52. generalize (2 ^ 52). clear -Ha Hb. intros z ER L2 P52.
    assert (z * (2 * Z.abs (m * K * b - a * U)) <= z * (b * K)) by (apply Z.mul_le_mono_nonneg_l; lia).
    assert (0 <= b * z) by nia. lia.
Qed.

(** ** Values of bit patterns *)

Lemma Fin_inj a b : Fin a = Fin b -> a = b.
Proof. congruence. Qed.

Lemma num64_bound b v : num64 b = Fin v -> Z.abs v <= DMAX * U.
Proof.
  unfold num64, fnum. cbv zeta. set (e := b / 2 ^ 52 mod 2 ^ 11). set (m := b mod 2 ^ 52).
  pose proof (Z.mod_pos_bound (b / 2 ^ 52) (2 ^ 11) ltac:(reflexivity)) as He. fold e in He.
  pose proof (Z.mod_pos_bound b (2 ^ 52) ltac:(reflexivity)) as Hm. fold m in Hm. clearbody e m.
  destruct (e =? 2 ^ 11 - 1) eqn:E; [destruct (m =? 0); [destruct (_ =? 0)|]; discriminate|]. zcmp. intros H. apply Fin_inj in H. rewrite <- H. clear H v.
  assert (A : 0 <= (if e =? 0 then m else (2 ^ 52 + m) * 2 ^ (e - 1)) <= DMAX * U).
  { assert (ED : DMAX * U = (2 ^ 53 - 1) * 2 ^ 2045) by (apply Z.eqb_eq; vm_compute; reflexivity). rewrite ED.
    assert (G1 : 1 <= 2 ^ 2045) by (apply (Z.pow_le_mono_r 2 0); lia).
    destruct (e =? 0) eqn:E0; zcmp.
    - split; [lia|]. assert (m <= 2 ^ 53 - 1) by (change (2 ^ 53) with (2 ^ 52 + 2 ^ 52); lia). assert (0 <= 2 ^ 53 - 1) by (vm_compute; discriminate).
      revert G1 H H0. generalize (2 ^ 2045), (2 ^ 53 - 1). clear -Hm. intros. nia.
    - assert (G2 : 2 ^ (e - 1) <= 2 ^ 2045) by (apply Z.pow_le_mono_r; change (2 ^ 11) with 2048 in *; lia).
      assert (G3 : 0 < 2 ^ (e - 1)) by (apply Z.pow_pos_nonneg; lia).
      assert (G4 : 0 <= 2 ^ 52 + m <= 2 ^ 53 - 1) by (change (2 ^ 53) with (2 ^ 52 + 2 ^ 52); assert (0 < 2 ^ 52) by reflexivity; lia).
      revert G1 G2 G3 G4. generalize (2 ^ 2045), (2 ^ 53 - 1), (2 ^ (e - 1)), (2 ^ 52 + m). clear. intros. split; nia. }
  destruct (_ =? 0) in |- * at 1; lia.
Qed.

Lemma num64_neg bits w : 0 <= bits < 2 ^ 63 -> num64 bits = Fin w -> num64 (2 ^ 63 + bits) = Fin (- w).
Proof.
  intros Hb. unfold num64, fnum. cbv zeta.
  change (11 + 52) with 63. rewrite (Z.div_small bits (2 ^ 63)) by assumption.
  assert (E1 : (2 ^ 63 + bits) / 2 ^ 63 = 1).
  { revert Hb. generalize (2 ^ 63). intros q Hq. symmetry. apply (Z.div_unique _ _ _ bits); lia. }
  rewrite E1. clear E1.
  change (0 mod 2) with 0. change (1 mod 2) with 1.
  replace ((2 ^ 63 + bits) mod 2 ^ 52) with (bits mod 2 ^ 52)
    by (replace (2 ^ 63 + bits) with (bits + 2 ^ 11 * 2 ^ 52) by (change (2 ^ 63) with (2 ^ 11 * 2 ^ 52); ring);
        symmetry; apply Z_mod_plus_full).
  replace ((2 ^ 63 + bits) / 2 ^ 52 mod 2 ^ 11) with (bits / 2 ^ 52 mod 2 ^ 11).
  2:{ replace (2 ^ 63 + bits) with (bits + 2 ^ 11 * 2 ^ 52) by (change (2 ^ 63) with (2 ^ 11 * 2 ^ 52); ring).
      rewrite Z_div_plus_full by lia. rewrite <- (Z_mod_plus_full (bits / 2 ^ 52) 1 (2 ^ 11)). rewrite Z.mul_1_l. reflexivity. }
  destruct (_ =? 2 ^ 11 - 1); [destruct (_ =? 0); discriminate|].
  change (0 =? 0) with true. change (1 =? 0) with false. cbv iota. intros H. apply Fin_inj in H. rewrite <- H. reflexivity.
Qed.

(** The sign bit and the value agree. *)
Lemma num64_sign b v : num64 b = Fin v -> if b / 2 ^ 63 mod 2 =? 0 then 0 <= v else v <= 0.
Proof.
  unfold num64, fnum. cbv zeta. change (11 + 52) with 63.
  pose proof (Z.mod_pos_bound b (2 ^ 52) ltac:(reflexivity)) as Hm.
  pose proof (Z.mod_pos_bound (b / 2 ^ 52) (2 ^ 11) ltac:(reflexivity)) as He.
  set (e := b / 2 ^ 52 mod 2 ^ 11) in *. set (m := b mod 2 ^ 52) in *. clearbody e m.
  destruct (e =? 2 ^ 11 - 1); [destruct (m =? 0); [destruct (_ =? 0)|]; discriminate|].
  assert (A : 0 <= (if e =? 0 then m else (2 ^ 52 + m) * 2 ^ (e - 1))).
  { destruct (e =? 0) eqn:E; zcmp; [lia|]. pose proof (Z.pow_pos_nonneg 2 (e - 1) ltac:(lia) ltac:(lia)).
    assert (0 < 2 ^ 52) by reflexivity. nia. }
  intros H. apply Fin_inj in H. rewrite <- H. destruct (b / 2 ^ 63 mod 2 =? 0); lia.
Qed.

(** ** Reading decimal numbers *)

(** What is read from digits, a point, [n] digits and an exponent [e]. *)
Definition dec_value (v : Z) (n : nat) (e : Z) : Z :=
  round_f64 (v * pw 10 (e - Z.of_nat n)) (pw 10 (- (e - Z.of_nat n))).

Definition first_digit (s : string) : Prop := first_is (fun c => 48 <= c <= 57) s.
Lemma digit_no_word s : first_digit s -> starts_nocase "inf" s = false /\ starts_nocase "nan" s = false.
Proof.
  destruct s as [|c s]; cbn [first_digit first_is]; [contradiction|]. intros H. cbn [starts_nocase].
  assert (L : lower c = b2z c) by (unfold lower; destruct (65 <=? b2z c) eqn:A; zcmp; [lia|reflexivity]).
  rewrite L. change (b2z "i") with 105. change (b2z "n") with 110.
  destruct (105 =? b2z c) eqn:A, (110 =? b2z c) eqn:B; zcmp; try lia; auto.
Qed.

(** A sign in front. *)
Definition sg (neg : bool) : string := if neg then "-" else "".
Definition sgz (neg : bool) : Z := if neg then 2 ^ 63 else 0.
Lemma scan_signed (neg : bool) s : first_digit s ->
  scan_double (sg neg ++ s) = match scan_double s with Some x => Some (sgz neg + x) | None => None end.
Proof.
  intros H. unfold scan_double. destruct (digit_no_word s H) as [A B]. destruct (digit_not_ws s H) as [C D].
  destruct neg; cbn [sg append sgz].
  - rewrite (proj1 (minus_sign _)), (proj2 (minus_sign _)). rewrite C, D, A, B.
    destruct (digits s 0 0) as [[v k] r]. destruct (match r with String c s' => _ | "" => _ end) as [[[v1 k1] n1] r1].
    destruct (k1 =? 0)%nat; [reflexivity|]. destruct (exponent r1); reflexivity.
  - rewrite C, D, A, B. destruct (digits s 0 0) as [[v k] r]. destruct (match r with String c s' => _ | "" => _ end) as [[[v1 k1] n1] r1].
    destruct (k1 =? 0)%nat; [reflexivity|]. destruct (exponent r1); reflexivity.
Qed.

(** [%le] *)
Lemma scan_sci m e : 0 <= m < 10 ^ 7 -> Z.abs e < 1000 ->
  let ae := Z.abs e in
  let s := String (digit (m / 10 ^ 6 mod 10)) ("." ++ show_pad 6 (m mod 10 ^ 6) ++ "e" ++
    (if e <? 0 then "-" else "+") ++ (if ae <? 100 then show_pad 2 ae else show_pad 3 ae)) in
  first_digit s /\ scan_double s = Some (dec_value m 6 e).
Proof.
  intros Hm He. cbv zeta.
  assert (Hd : 0 <= m / 10 ^ 6 mod 10 < 10) by (apply Z.mod_pos_bound; lia).
  assert (FD : forall r, first_digit (String (digit (m / 10 ^ 6 mod 10)) r)) by (intros r; unfold first_digit, first_is; rewrite b2z_digit by lia; lia).
  split; [apply FD|]. unfold scan_double.
  match goal with |- context [String (digit ?d) ?r] => set (R := r); set (T := String (digit d) R) end.
  destruct (digit_not_ws T (FD R)) as [-> ->]. destruct (digit_no_word T (FD R)) as [-> ->].
  assert (ET : digits T 0 0 = (m / 10 ^ 6, 1%nat, R)).
  { unfold T. rewrite digits_digit by lia. rewrite Z.mod_small by (split; [apply Z.div_pos; lia|apply Z.div_lt_upper_bound; [lia|change (10 ^ 6 * 10) with (10 ^ 7); lia]]).
    rewrite digits_stop; [f_equal; f_equal; lia|]. reflexivity. }
  rewrite ET. unfold R at 1. cbn [append]. change (b2z "." =? 46) with true. cbv iota.
  rewrite show_pad_digits by (apply Z.mod_pos_bound; reflexivity). change (Z.of_nat 6) with 6. rewrite Z.mod_mod by (vm_compute; discriminate).
  rewrite digits_stop by reflexivity.
  replace (m / 10 ^ 6 * 10 ^ 6 + m mod 10 ^ 6) with m by (pose proof (Z.div_mod m (10 ^ 6) ltac:(vm_compute; discriminate)); lia).
  change (1 + (0 + 6) =? 0)%nat with false. cbv iota.
  assert (EE : exponent (String "e" ((if e <? 0 then "-" else "+") ++ (if Z.abs e <? 100 then show_pad 2 (Z.abs e) else show_pad 3 (Z.abs e)))) = Some e).
  { unfold exponent. change (lower "e" =? 101) with true. cbv iota.
    assert (ES : forall r, sign ((if e <? 0 then "-" else "+") ++ r) = (e <? 0, r)) by (intros r; destruct (e <? 0); reflexivity).
    rewrite ES.
    assert (ED : digits (if Z.abs e <? 100 then show_pad 2 (Z.abs e) else show_pad 3 (Z.abs e)) 0 0 =
                 (Z.abs e, (if (Z.abs e <? 100)%Z then 2 else 3)%nat, "")).
    { destruct (Z.abs e <? 100) eqn:A; zcmp.
      - pose proof (show_pad_digits 2 (Z.abs e) "" 0 0 ltac:(lia)) as D. rewrite append_nil_r in D. rewrite D. cbn [digits].
        rewrite Z.mod_small by (change (10 ^ Z.of_nat 2) with 100; lia). reflexivity.
      - pose proof (show_pad_digits 3 (Z.abs e) "" 0 0 ltac:(lia)) as D. rewrite append_nil_r in D. rewrite D. cbn [digits].
        rewrite Z.mod_small by (change (10 ^ Z.of_nat 3) with 1000; lia). reflexivity. }
    rewrite ED. assert (EK : ((if (Z.abs e <? 100)%Z then 2 else 3) =? 0)%nat = false) by (destruct (Z.abs e <? 100); reflexivity). rewrite EK.
    destruct (e <? 0) eqn:A; zcmp; f_equal; lia. }
  cbn [append] in EE. rewrite EE. reflexivity.
Qed.

(** [%.<p>lf] *)
Lemma scan_fixed f p n : (1 <= p)%nat -> 0 <= n -> n / 10 ^ Z.of_nat p < 10 ^ Z.of_nat (S f) ->
  let s := show (S f) (n / 10 ^ Z.of_nat p) ++ "." ++ show_pad p (n mod 10 ^ Z.of_nat p) in
  first_digit s /\ scan_double s = Some (dec_value n p 0).
Proof.
  intros Hp Hn Hb. cbv zeta. set (P := 10 ^ Z.of_nat p) in *. assert (HP : 0 < P) by (apply Z.pow_pos_nonneg; lia).
  assert (Hq : 0 <= n / P) by (apply Z.div_pos; lia).
  set (R := "." ++ show_pad p (n mod P)).
  assert (FD : first_digit (show (S f) (n / P) ++ R)) by (apply first_app; apply (show_first f); assumption).
  split; [exact FD|]. unfold scan_double. destruct (digit_not_ws _ FD) as [-> ->]. destruct (digit_no_word _ FD) as [-> ->].
  assert (Hlt : 0 <= n / P < 10 ^ Z.of_nat (S f)) by (split; [assumption|exact Hb]).
  destruct (show_digits f (n / P) R 0 0 Hlt) as (L & HL & ->).
  rewrite digits_stop by reflexivity. unfold R at 1. cbn [append]. change (b2z "." =? 46) with true. cbv iota.
  pose proof (show_pad_digits p (n mod P) "" (0 * 10 ^ Z.of_nat L + n / P) 0 (proj1 (Z.mod_pos_bound n P HP))) as D.
  rewrite append_nil_r in D. rewrite D. fold P. rewrite Z.mod_mod by lia. cbn [digits].
  destruct (0 + L + (0 + p) =? 0)%nat eqn:E; [apply Nat.eqb_eq in E; lia|]. cbn [exponent].
  replace ((0 * 10 ^ Z.of_nat L + n / P) * P + n mod P) with n by (pose proof (Z.div_mod n P ltac:(lia)); lia).
  reflexivity.
Qed.
