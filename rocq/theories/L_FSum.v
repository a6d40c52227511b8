(** Lemmas for P_FSum.v *)

From Coq Require Import ZArith List Bool Lia Permutation.
From Verif Require Import Base M_Bytes M_Scan M_Flags M_Loop M_RS1 M_RS2 M_RS3 Spec Spec_Loop Spec_Tec M_Reduce Spec_Reduce M_FSum Spec_FSum.
From Verif Require Import L_Base L_Loop L_TecMin L_ScanF L_Extract L_Nearest L_Settle L_Reduce.
Import ListNotations.
Open Scope Z_scope.

(** The rounded quotient, sharper than [round_f64_spec] for what is not small. *)
Lemma round_f64_tight a b : 0 < a -> 0 < b -> a <= DMAX * b -> 2 ^ 53 * b < a * U ->
  exists w, num64 (round_f64 a b) = Fin w /\ 0 <= w /\ 0 <= round_f64 a b < 2 ^ 63 /\
    2 ^ 53 * Z.abs (w * b - a * U) <= a * U.
Proof.
  intros Ha Hb HM BIG. unfold round_f64. destruct (a =? 0) eqn:E0; zcmp.
  { lia. }
  destruct (exp2_spec a b ltac:(lia) Hb) as [F1 F2]. cbv zeta in F1, F2. cbv zeta.
  set (e := if a * 2 ^ Z.max 0 (- (Z.log2 a - Z.log2 b)) <? b * 2 ^ Z.max 0 (Z.log2 a - Z.log2 b)
            then Z.log2 a - Z.log2 b - 1 else Z.log2 a - Z.log2 b) in *. clearbody e.
  set (ex := Z.max (e - 52) (-1074)). fold (pw 2 (- ex)) (pw 2 ex).
  set (P := pw 2 ex). set (N := pw 2 (- ex)). set (k := ex + 1074). set (K := 2 ^ k).
  assert (HP : 0 < P) by (apply pw_pos; lia). assert (HN : 0 < N) by (apply pw_pos; lia).
  assert (Hk : 0 <= k) by (unfold k, ex; lia). assert (HK : 0 < K) by (apply Z.pow_pos_nonneg; lia).
  assert (HU : P * U = K * N).
  { pose proof (pw_add 2 (-1074) k ltac:(lia) Hk) as H. replace (-1074 + k) with ex in H by (unfold k; lia).
    change (pw 2 (- -1074)) with U in H. change (pw 2 (-1074)) with 1 in H. fold P N K in H. lia. }
  destruct (round_div_spec (a * N) (b * P)) as [M0 MS]; [nia|nia|].
  set (m := round_div (a * N) (b * P)) in *.
  (* bounds of m *)
  assert (P53 : 0 < 2 ^ 53) by reflexivity.
  assert (UP : a * N <= 2 ^ 53 * (b * P)).
  { pose proof (pw_add 2 (e + 1) (ex + 53 - (e + 1)) ltac:(lia) ltac:(unfold ex; lia)) as H1.
    replace (e + 1 + (ex + 53 - (e + 1))) with (ex + 53) in H1 by lia.
    pose proof (pw_add 2 ex 53 ltac:(lia) ltac:(lia)) as H2. fold P N in H2.
    pose proof (pw_pos 2 (e + 1) ltac:(lia)) as Q1. pose proof (pw_pos 2 (- (e + 1)) ltac:(lia)) as Q2.
    pose proof (pw_pos 2 (ex + 53) ltac:(lia)) as Q3. pose proof (pw_pos 2 (- (ex + 53)) ltac:(lia)) as Q4.
    assert (Q5 : 1 <= 2 ^ (ex + 53 - (e + 1))) by (apply (Z.pow_le_mono_r 2 0); unfold ex; lia).
    set (p1 := pw 2 (e + 1)) in *. set (n1 := pw 2 (- (e + 1))) in *. set (p2 := pw 2 (ex + 53)) in *. set (n2 := pw 2 (- (ex + 53))) in *.
    set (D := 2 ^ (ex + 53 - (e + 1))) in *.
    (* a/b < p1/n1 <= p2/n2 = 2^53 P/N *)
    assert (G : a * n2 <= b * p2).
    { apply (Z.mul_le_mono_pos_r _ _ n1 Q2). replace (b * p2 * n1) with (b * (p2 * n1)) by ring. rewrite H1.
      replace (b * (D * p1 * n2)) with (D * (b * p1) * n2) by ring. replace (a * n2 * n1) with (a * n1 * n2) by ring.
      apply Z.mul_le_mono_nonneg_r; [lia|]. nia. }
    apply (Z.mul_le_mono_pos_r _ _ n2 Q4). replace (2 ^ 53 * (b * P) * n2) with (b * (2 ^ 53 * P * n2)) by ring. rewrite <- H2.
    replace (a * N * n2) with (a * n2 * N) by ring. replace (b * (p2 * N)) with (b * p2 * N) by ring.
    apply Z.mul_le_mono_nonneg_r; lia. }
  assert (Mup : m <= 2 ^ 53) by (apply round_div_up; [nia|nia|exact UP]).
  assert (LOW : 0 < k -> 2 ^ 52 * (b * P) <= a * N).
  { intros Hk'. assert (Eex : e = ex + 52) by (unfold k, ex in *; lia).
    pose proof (pw_add 2 ex 52 ltac:(lia) ltac:(lia)) as H2. fold P N in H2. rewrite <- Eex in H2.
    pose proof (pw_pos 2 (- e) ltac:(lia)) as Q2. set (p1 := pw 2 e) in *. set (n1 := pw 2 (- e)) in *.
    apply (Z.mul_le_mono_pos_r _ _ n1 Q2). replace (2 ^ 52 * (b * P) * n1) with (b * (2 ^ 52 * P * n1)) by ring. rewrite <- H2.
    replace (b * (p1 * N)) with (b * p1 * N) by ring. replace (a * N * n1) with (a * n1 * N) by ring.
    apply Z.mul_le_mono_nonneg_r; lia. }
  assert (Mlow : k = 0 /\ 0 <= m \/ 2 ^ 52 <= m).
  { destruct (Z.eq_dec k 0) as [->|Hn]; [left; auto|right]. apply round_div_low; [nia|nia|]. apply LOW. lia. }
  (* no overflow *)
  assert (Hexp : k <= 2045).
  { destruct (Z_le_gt_dec k 2045); [assumption|exfalso]. specialize (LOW ltac:(lia)).
    assert (E1 : 2 ^ 52 * P > DMAX * N).
    { unfold P, N, pw. rewrite (Z.max_l 0 (- ex)), (Z.max_r 0 ex) by (unfold k in *; lia). change (2 ^ 0) with 1.
      assert (2 ^ 972 <= 2 ^ ex) by (apply Z.pow_le_mono_r; unfold k in *; lia).
      assert (DMAX < 2 ^ 52 * 2 ^ 972) by (apply Z.ltb_lt; vm_compute; reflexivity).
      assert (0 < 2 ^ 52) by reflexivity. revert H H0 H1. generalize (2 ^ 52), (2 ^ 972), (2 ^ ex), DMAX. clear. intros. nia. }
    revert LOW E1 HM. clear -HN HP Hb. generalize (2 ^ 52), DMAX. intros. assert (a * N <= z0 * b * N) by nia. nia. }
  assert (Htop : k * 2 ^ 52 + m < 2047 * 2 ^ 52).
  { destruct (Z.eq_dec k 2045) as [E|E].
    - assert (m <= 2 ^ 53 - 1).
      { apply round_div_up; [nia|nia|]. unfold N, P, pw. rewrite (Z.max_l 0 (- ex)), (Z.max_r 0 ex) by (unfold k in *; lia).
        replace ex with 971 by (unfold k in *; lia). change (2 ^ 0) with 1. unfold DMAX in HM. rewrite Z.mul_1_r.
        replace ((2 ^ 53 - 1) * (b * 2 ^ 971)) with ((2 ^ 53 - 1) * 2 ^ 971 * b) by ring. exact HM. }
      rewrite E. change (2 ^ 53) with (2 * 2 ^ 52) in H. revert H. assert (0 < 2 ^ 52) by reflexivity. revert H. generalize (2 ^ 52). clear. intros. lia.
    - change (2 ^ 53) with (2 * 2 ^ 52) in Mup. revert Mup. assert (G : 0 < 2 ^ 52) by reflexivity. revert G. generalize (2 ^ 52).
      intros q G Mup. assert (k <= 2044) by lia. nia. }
  rewrite Z.min_l by lia.
  exists (m * K). split; [apply num64_bits; assumption|]. split; [nia|]. split.
  { change (2 ^ 63) with (2048 * 2 ^ 52). assert (G : 0 < 2 ^ 52) by reflexivity. revert G Htop. generalize (2 ^ 52). clear -Hk M0. intros. nia. }
  (* error *)
  assert (ER : 2 * Z.abs (m * K * b - a * U) <= b * K).
  { apply (Z.mul_le_mono_pos_r _ _ N HN). replace (b * K * N) with (b * (K * N)) by ring. rewrite <- HU.
    replace (b * (P * U)) with ((b * P) * U) by ring.
    replace (2 * Z.abs (m * K * b - a * U) * N) with (2 * Z.abs (m * (b * P) - a * N) * U).
    - apply Z.mul_le_mono_nonneg_r; [pose proof U_pos; lia|]. replace (m * (b * P) - a * N) with (m * (b * P) - a * N) by ring. exact MS.
    - pose proof U_pos. rewrite <- !Z.mul_assoc. f_equal. rewrite <- (Z.abs_eq N) at 2 by lia. rewrite <- (Z.abs_eq U) at 1 by lia.
      rewrite <- !Z.abs_mul. f_equal. replace ((m * (b * P) - a * N) * U) with (m * b * (P * U) - a * N * U) by ring. rewrite HU. ring. }
  change (2 ^ 53) with (2 ^ 52 * 2). assert (P52 : 0 < 2 ^ 52) by reflexivity.
  destruct (Z.eq_dec k 0) as [Ek|Ek].
  - exfalso. assert (EK : K = 1) by (unfold K; rewrite Ek; reflexivity). rewrite EK, Z.mul_1_l in HU.
    revert UP BIG. rewrite <- HU. clear -HP Hb. intros UP BIG.
    assert (a * (P * U) = P * (a * U)) by ring. assert (2 ^ 53 * (b * P) = P * (2 ^ 53 * b)) by ring.
    assert (P * (2 ^ 53 * b) < P * (a * U)) by (apply Z.mul_lt_mono_pos_l; assumption). lia.
  - specialize (LOW ltac:(lia)). assert (L2 : 2 ^ 52 * (b * K) <= a * U).
    { apply (Z.mul_le_mono_pos_r _ _ N HN). replace (2 ^ 52 * (b * K) * N) with (2 ^ 52 * b * (K * N)) by ring. rewrite <- HU.
      replace (2 ^ 52 * b * (P * U)) with (2 ^ 52 * (b * P) * U) by ring. replace (a * U * N) with (a * N * U) by ring.
      apply Z.mul_le_mono_nonneg_r; [pose proof U_pos; lia|exact LOW]. }
    revert ER L2 P52. generalize (2 ^ 52). clear -Ha Hb. intros z ER L2 P52.
    assert (z * (2 * Z.abs (m * K * b - a * U)) <= z * (b * K)) by (apply Z.mul_le_mono_nonneg_l; lia).
    assert (0 <= b * z) by nia. lia.
Qed.

Lemma dmax_eq : DMAX * U = double_max.
Proof. unfold DMAX, U, double_max. rewrite <- Z.mul_assoc, <- Z.pow_add_r by lia. reflexivity. Qed.

Lemma fit_range k m : 0 <= k <= 2045 -> 0 < m < 2 ^ 53 -> (k = 0 \/ 2 ^ 52 <= m) ->
  0 <= k * 2 ^ 52 + m < 2 ^ 63 /\ num64 (k * 2 ^ 52 + m) = Fin (m * 2 ^ k).
Proof.
  intros Hk Hm Hc. assert (R : k * 2 ^ 52 + m < 2047 * 2 ^ 52).
  { change (2 ^ 53) with (2 * 2 ^ 52) in Hm. assert (0 < 2 ^ 52) by reflexivity. revert H Hm Hk. clear. generalize (2 ^ 52). intros. nia. }
  split.
  - split; [assert (0 < 2 ^ 52) by reflexivity; lia|]. apply (Z.lt_trans _ _ _ R). reflexivity.
  - apply num64_bits; [lia|destruct Hc; [left|right]; lia|lia|exact R].
Qed.

(** A multiple of a power of two with at most 53 digits has a pattern. *)
Lemma representable j : forall m, (j <= 2045)%nat -> 0 < m < 2 ^ 53 ->
  exists b, 0 <= b < 2 ^ 63 /\ num64 b = Fin (m * 2 ^ Z.of_nat j).
Proof.
  induction j as [|j IH]; intros m Hj Hm.
  - exists (0 * 2 ^ 52 + m). apply (fit_range 0 m); [lia|exact Hm|left; reflexivity].
  - destruct (Z_le_gt_dec (2 ^ 52) m) as [L|L].
    + exists (Z.of_nat (S j) * 2 ^ 52 + m). apply (fit_range (Z.of_nat (S j)) m); [lia|exact Hm|right; exact L].
    + destruct (IH (2 * m) ltac:(lia)) as (b & B & E); [change (2 ^ 53) with (2 * 2 ^ 52); lia|].
      exists b. split; [exact B|]. rewrite E, Nat2Z.inj_succ, Z.pow_succ_r by lia. f_equal. ring.
Qed.

Lemma round_value t b : 0 < t -> 0 <= b < 2 ^ 63 -> num64 b = Fin t -> round_f64 t (2 ^ 1074) = b.
Proof. intros Ht Hb E. apply (round_f64_value b t t (2 ^ 1074) Hb E U_pos). reflexivity. Qed.

(** The rounded number. *)
Lemma round_near t : 0 < t -> t <= double_max ->
  exists w, num64 (round_f64 t (2 ^ 1074)) = Fin w /\ 0 <= w /\ 0 <= round_f64 t (2 ^ 1074) < 2 ^ 63 /\ 2 ^ 53 * Z.abs (w - t) <= t.
Proof.
  intros Ht Hm. destruct (Z_le_gt_dec t (2 ^ 53)) as [L|L].
  - assert (R : exists b, 0 <= b < 2 ^ 63 /\ num64 b = Fin t).
    { destruct (Z.eq_dec t (2 ^ 53)) as [->|N].
      - destruct (representable 1 (2 ^ 52)) as (b & B & E); [lia|split; reflexivity|]. exists b. split; [exact B|]. rewrite E. reflexivity.
      - destruct (representable 0 t) as (b & B & E); [lia|lia|]. exists b. split; [exact B|]. rewrite E. f_equal. apply Z.mul_1_r. }
    destruct R as (b & B & E). exists t. rewrite (round_value t b Ht B E). split; [exact E|]. split; [lia|]. split; [exact B|].
    rewrite Z.sub_diag. lia.
  - pose proof U_pos as HU. destruct (round_f64_tight t U Ht HU) as (w & A & B & C & D).
    + rewrite dmax_eq. exact Hm.
    + apply Z.mul_lt_mono_pos_r; lia.
    + exists w. split; [exact A|]. split; [exact B|]. split; [exact C|].
      apply (Z.mul_le_mono_pos_r _ _ U HU). rewrite <- Z.mul_assoc.
      replace (Z.abs (w - t) * U) with (Z.abs (w * U - t * U)); [exact D|].
      rewrite <- Z.mul_sub_distr_r, Z.abs_mul, (Z.abs_eq U) by lia. reflexivity.
Qed.

Lemma num64_minus b v : 0 <= b < 2 ^ 63 -> num64 b = Fin v -> num64 (2 ^ 63 + b) = Fin (- v).
Proof. intros Hb E. rewrite (num64_neg_all b Hb), E. reflexivity. Qed.

(** One addition. *)
Lemma dadd_near x y a b : num64 x = Fin a -> num64 y = Fin b -> Z.abs (a + b) <= double_max ->
  exists c, num64 (dadd x y) = Fin c /\ 0 <= dadd x y < 2 ^ 64 /\ 2 ^ 53 * Z.abs (c - (a + b)) <= Z.abs (a + b) /\
            (0 <= a + b -> 0 <= c).
Proof.
  intros Ex Ey H. unfold dadd. rewrite Ex, Ey. cbv zeta. set (t := a + b) in *. clearbody t.
  change (2 ^ 64) with (2 * 2 ^ 63).
  destruct (Z.eqb_spec t 0) as [->|N].
  - exists 0. split; [|split].
    + destruct (_ && _); reflexivity.
    + destruct (_ && _); lia.
    + split; [reflexivity|lia].
  - destruct (Z.ltb_spec 0 t) as [L|L].
    + destruct (round_near t L ltac:(lia)) as (w & A & B & C & D). exists w. split; [exact A|]. split; [lia|].
      rewrite (Z.abs_eq t) by lia. split; [exact D|auto].
    + destruct (round_near (- t) ltac:(lia) ltac:(lia)) as (w & A & B & C & D). exists (- w). split; [apply num64_minus; assumption|].
      split; [lia|]. rewrite (Z.abs_neq t) by lia. replace (- w - t) with (- (w - (- t))) by ring. rewrite Z.abs_opp. split; [exact D|lia].
Qed.

(** No number is nearer to the sum. *)
Lemma dadd_nearest x y a b : num64 x = Fin a -> num64 y = Fin b -> Z.abs (a + b) <= double_max ->
  exists c, num64 (dadd x y) = Fin c /\ forall z v, num64 z = Fin v -> Z.abs (c - (a + b)) <= Z.abs (v - (a + b)).
Proof.
  intros Ex Ey H. unfold dadd. rewrite Ex, Ey. cbv zeta. set (t := a + b) in *. clearbody t. fold U.
  assert (G : forall t, 0 < t -> t <= double_max -> exists c, num64 (round_f64 t U) = Fin c /\ 0 <= round_f64 t U < 2 ^ 63 /\
                forall z v, num64 z = Fin v -> Z.abs (c - t) <= Z.abs (v - t)).
  { clear. intros t Ht HM. pose proof U_pos as HU. destruct (round_f64_nearest t U Ht HU) as (w & E & _ & R & N); [rewrite dmax_eq; exact HM|].
    exists w. split; [exact E|]. split; [exact R|]. intros z v Hv. specialize (N z v Hv). clear - N HU.
    replace (w * U - t * U) with ((w - t) * U) in N by ring. replace (v * U - t * U) with ((v - t) * U) in N by ring.
    rewrite !Z.abs_mul, (Z.abs_eq U) in N by lia. exact (Zmult_lt_0_le_reg_r _ _ U HU N). }
  destruct (Z.eqb_spec t 0) as [->|N].
  - exists 0. split; [destruct (_ && _); reflexivity|]. intros z v _. apply Z.abs_nonneg.
  - destruct (Z.ltb_spec 0 t) as [L|L].
    + destruct (G t L ltac:(lia)) as (c & A & _ & B). exists c. auto.
    + destruct (G (- t) ltac:(lia) ltac:(lia)) as (c & A & R & B). exists (- c). split; [apply num64_minus; assumption|].
      intros z v Hv. destruct (finite_neg z v Hv) as (z' & Hz). specialize (B z' (- v) Hz). lia.
Qed.

(** An addition whose sum has a pattern is exact. *)
Lemma dadd_exact x y a b k m : num64 x = Fin a -> num64 y = Fin b -> 0 <= k <= 2045 -> Z.abs m < 2 ^ 53 -> a + b = m * 2 ^ k ->
  num64 (dadd x y) = Fin (a + b) /\ 0 <= dadd x y < 2 ^ 64.
Proof.
  intros Ex Ey Hk Hm E. unfold dadd. rewrite Ex, Ey. cbv zeta. set (t := a + b) in *. clearbody t.
  change (2 ^ 64) with (2 * 2 ^ 63). assert (K : 0 < 2 ^ k) by (apply Z.pow_pos_nonneg; lia).
  destruct (Z.eqb_spec t 0) as [->|N].
  - split; destruct (_ && _); try reflexivity; lia.
  - destruct (Z.ltb_spec 0 t) as [L|L].
    + destruct (representable (Z.to_nat k) m) as (p & P & F); [lia|nia|]. rewrite Z2Nat.id, <- E in F by lia.
      rewrite (round_value t p L P F). split; [exact F|lia].
    + destruct (representable (Z.to_nat k) (- m)) as (p & P & F); [lia|nia|]. rewrite Z2Nat.id in F by lia.
      replace (- m * 2 ^ k) with (- t) in F by lia. rewrite (round_value (- t) p ltac:(lia) P F).
      split; [|lia]. rewrite (num64_minus p (- t) P F). f_equal. ring.
Qed.

(** ** Sums *)

Lemma accumulate_sum l : forall acc, accumulate RF_SUM_f64 l acc = Ok (fold_left dadd l acc).
Proof. induction l as [|x l IH]; intros acc; cbn [accumulate fold_left]; [reflexivity|]. unfold RF_SUM_f64 at 1. cbn [rbind]. apply IH. Qed.

(** (1 + 2^-53)^n in units of 2^-53n *)
Definition up (n : nat) : Z := (2 ^ 53 + 1) ^ Z.of_nat n.
Definition one (n : nat) : Z := 2 ^ (53 * Z.of_nat n).
Lemma up_S n : up (S n) = (2 ^ 53 + 1) * up n.
Proof. unfold up. rewrite Nat2Z.inj_succ, Z.pow_succ_r by lia. reflexivity. Qed.
Lemma one_S n : one (S n) = 2 ^ 53 * one n.
Proof. unfold one. rewrite Nat2Z.inj_succ. replace (53 * Z.succ (Z.of_nat n)) with (53 + 53 * Z.of_nat n) by lia. rewrite Z.pow_add_r by lia. reflexivity. Qed.
Lemma one_pos n : 0 < one n.
Proof. unfold one. apply Z.pow_pos_nonneg; lia. Qed.
Lemma up_one n : one n <= up n.
Proof.
  induction n as [|n IH]; [reflexivity|]. rewrite up_S, one_S. pose proof (one_pos n). assert (0 < 2 ^ 53) by reflexivity.
  revert H0 H IH. generalize (2 ^ 53), (one n), (up n). clear. intros. nia.
Qed.

(** One step: [s'] is the rounded sum of [s^] and [x]. *)
Lemma step_close n A s sh x c : 0 <= A -> Z.abs s <= A -> close n A sh s -> 2 ^ 53 * Z.abs (c - (sh + x)) <= Z.abs (sh + x) ->
  close (S n) (A + Z.abs x) c (s + x).
Proof.
  unfold close. fold (one n) (up n) (one (S n)) (up (S n)). rewrite up_S, one_S. intros HA HS H1 H2.
  pose proof (one_pos n) as P1. pose proof (up_one n) as P2. assert (P3 : 0 < 2 ^ 53) by reflexivity.
  revert P1 P2 P3 H1 H2. generalize (2 ^ 53), (one n), (up n). clear n. intros B o u P1 P2 P3 H1 H2.
  (* o |sh - s| <= (u - o) A;  B |c - sh - x| <= |sh + x| *)
  assert (E : Z.abs (sh + x) <= Z.abs (sh - s) + A + Z.abs x) by lia.
  assert (F : o * Z.abs (sh + x) <= (u - o) * A + o * A + o * Z.abs x) by nia.
  assert (G : B * o * Z.abs (c - (s + x)) <= B * o * Z.abs (sh - s) + B * o * Z.abs (c - (sh + x))).
  { rewrite <- Z.mul_add_distr_l. apply Z.mul_le_mono_nonneg_l; [nia|lia]. }
  assert (H3 : B * o * Z.abs (sh - s) <= B * ((u - o) * A)) by (rewrite <- Z.mul_assoc; apply Z.mul_le_mono_nonneg_l; lia).
  assert (H4 : B * o * Z.abs (c - (sh + x)) <= o * Z.abs (sh + x)) by (rewrite (Z.mul_comm B o), <- Z.mul_assoc; apply Z.mul_le_mono_nonneg_l; lia).
  assert (X : 0 <= Z.abs x) by lia. revert F G H3 H4 X.
  generalize (Z.abs (c - (s + x))), (Z.abs (sh - s)), (Z.abs (c - (sh + x))), (Z.abs (sh + x)), (Z.abs x). intros p q r w X F G H3 H4 HX.
  assert (K : B * o * p <= B * ((u - o) * A) + ((u - o) * A + o * A + o * X)) by lia.
  assert (L : B * ((u - o) * A) + ((u - o) * A + o * A + o * X) <= ((B + 1) * u - B * o) * (A + X)).
  { assert (o * X <= u * X) by nia. assert (0 <= B * (u - o)) by nia. nia. }
  lia.
Qed.

Lemma bounds_pred n A B : in_bounds (S n) B -> A <= B -> in_bounds n A.
Proof.
  unfold in_bounds. fold (one n) (up n) (one (S n)) (up (S n)). rewrite up_S, one_S.
  pose proof (one_pos n) as P1. pose proof (up_one n) as P2. assert (P3 : 0 < 2 ^ 53) by reflexivity.
  assert (P4 : 0 <= double_max) by (unfold double_max; apply Z.mul_nonneg_nonneg; [lia|apply Z.pow_nonneg; lia]).
  revert P1 P2 P3 P4. generalize (2 ^ 53), (one n), (up n), double_max. clear n. intros b o u d P1 P2 P3 P4 H L.
  destruct (Z_le_gt_dec B 0) as [K|K].
  - assert (u * A <= 0) by nia. nia.
  - assert (u * A <= u * B) by nia. apply (Z.mul_le_mono_pos_l _ _ b P3). nia.
Qed.
Lemma bounds_less k : forall n A B, in_bounds (n + k) B -> A <= B -> in_bounds n A.
Proof.
  induction k as [|k IH]; intros n A B H L.
  - rewrite Nat.add_0_r in H. unfold in_bounds in *. fold (one n) (up n) in *. pose proof (one_pos n). pose proof (up_one n).
    revert H L H0 H1. generalize (one n * double_max), (one n), (up n). clear. intros. nia.
  - rewrite Nat.add_succ_r in H. apply (IH n A B); [|exact L]. apply (bounds_pred _ B B H). lia.
Qed.

Lemma close_size n A s sh : Z.abs s <= A -> close n A sh s -> one n * Z.abs sh <= up n * A.
Proof.
  unfold close. fold (one n) (up n). pose proof (one_pos n). pose proof (up_one n). intros HS HC.
  assert (Z.abs sh <= Z.abs (sh - s) + A) by lia. nia.
Qed.

Lemma step_bound n A s sh x : Z.abs s <= A -> close n A sh s -> in_bounds n (A + Z.abs x) -> Z.abs (sh + x) <= double_max.
Proof.
  intros HS HC HB. pose proof (close_size n A s sh HS HC) as H. unfold in_bounds in HB. fold (one n) (up n) in HB.
  pose proof (one_pos n) as P1. pose proof (up_one n) as P2. apply (Z.mul_le_mono_pos_l _ _ (one n) P1).
  assert (one n * Z.abs (sh + x) <= one n * Z.abs sh + one n * Z.abs x) by (rewrite <- Z.mul_add_distr_l; apply Z.mul_le_mono_nonneg_l; lia).
  assert (one n * Z.abs x <= up n * Z.abs x) by (apply Z.mul_le_mono_nonneg_r; lia). lia.
Qed.

Lemma abs_sum_nonneg vs : 0 <= zsum (map Z.abs vs).
Proof. apply zsum_nonneg, abs_nonneg. Qed.

(** One more addition to a close number. *)
Lemma add_close n A s sh x a y : num64 x = Fin sh -> num64 y = Fin a -> Z.abs s <= A -> close n A sh s -> in_bounds (S n) (A + Z.abs a) ->
  exists c, num64 (dadd x y) = Fin c /\ close (S n) (A + Z.abs a) c (s + a) /\ (0 <= sh -> 0 <= a -> 0 <= c).
Proof.
  intros Ex Ey HS HC HB.
  pose proof (step_bound n A s sh a HS HC (bounds_pred _ _ _ HB (Z.le_refl _))) as B.
  destruct (dadd_near x y sh a Ex Ey B) as (c & E & R & N & P). exists c. split; [exact E|]. split; [|intros; apply P; lia].
  eapply step_close; eauto. lia.
Qed.

Lemma fold_close l vs : stand_for l vs -> forall acc n A s sh, num64 acc = Fin sh -> Z.abs s <= A -> close n A sh s ->
  in_bounds (n + List.length l) (A + zsum (map Z.abs vs)) ->
  exists c, num64 (fold_left dadd l acc) = Fin c /\ close (n + List.length l) (A + zsum (map Z.abs vs)) c (s + zsum vs) /\
            (0 <= sh -> Forall (fun v => 0 <= v) vs -> 0 <= c).
Proof.
  induction 1 as [|x v l vs [Hx Ev] HF IH]; intros acc n A s sh E HS HC HB; cbn [fold_left List.length map].
  - exists sh. rewrite Nat.add_0_r. change (zsum []) with 0. rewrite !Z.add_0_r. auto.
  - rewrite !zsum_cons, !Z.add_assoc. cbn [map List.length] in HB. rewrite zsum_cons, Z.add_assoc in HB. rewrite <- Nat.add_succ_comm in *.
    destruct (add_close n A s sh acc v x E Ev HS HC) as (c & Ec & Hc & Pc).
    { apply (bounds_less (List.length l) (S n) _ _ HB). pose proof (abs_sum_nonneg vs). lia. }
    destruct (IH (dadd acc x) (S n) (A + Z.abs v) (s + v) c Ec ltac:(lia) Hc HB) as (d & Ed & Hd & Pd).
    exists d. split; [exact Ed|]. split; [exact Hd|]. intros P0 PF. inversion PF; subst. apply Pd; auto.
Qed.

Lemma dadd_comm_num x y a b : num64 x = Fin a -> num64 y = Fin b -> num64 (dadd x y) = num64 (dadd y x).
Proof.
  intros Ex Ey. unfold dadd. rewrite Ex, Ey. cbv zeta. rewrite (Z.add_comm b a). destruct (_ =? 0); [|reflexivity].
  rewrite (andb_comm (2 ^ 63 <=? y)). reflexivity.
Qed.

Lemma close_refl n A s : 0 <= A -> close n A s s.
Proof.
  intros HA. unfold close. fold (one n) (up n). rewrite Z.sub_diag. change (Z.abs 0) with 0. rewrite Z.mul_0_r.
  pose proof (up_one n). nia.
Qed.

Lemma sum_close ans a vals vs : num64 ans = Fin a -> stand_for vals vs ->
  let size := Z.abs a + zsum (map Z.abs vs) + Z.abs a in
  in_bounds (S (List.length vals)) size ->
  exists v c, outcome RF_SUM_f64 vals ans = Ok v /\ num64 v = Fin c /\ close (S (List.length vals)) size c (a + zsum vs + a).
Proof.
  intros Ea HF. cbv zeta. intros HB. unfold outcome. rewrite accumulate_sum. cbn [rbind]. unfold RF_SUM_f64.
  destruct (fold_close vals vs HF ans 0%nat (Z.abs a) a a Ea (Z.le_refl _) (close_refl 0 (Z.abs a) a (Z.abs_nonneg a))) as (c & Ec & Hc & _).
  { apply (bounds_pred _ _ _ HB). lia. }
  cbn [Nat.add] in Hc. assert (HS : Z.abs (a + zsum vs) <= Z.abs a + zsum (map Z.abs vs)).
  { clear. induction vs as [|v vs IH]; cbn [map]; [change (zsum []) with 0; lia|]. rewrite !zsum_cons. lia. }
  destruct (add_close _ _ _ _ _ _ _ Ec Ea HS Hc HB) as (d & Ed & Hd & _).
  exists (dadd ans (fold_left dadd vals ans)), d. split; [reflexivity|]. split; [|exact Hd].
  rewrite (dadd_comm_num _ _ _ _ Ea Ec). exact Ed.
Qed.

(** *** Absolute values *)

Lemma stand_abs l vs : stand_for l vs -> stand_for (map (fabs Double) l) (map Z.abs vs).
Proof.
  unfold stand_for. induction 1 as [|x v l vs [Hx Ev] HF IH]; cbn [map]; constructor; [|exact IH].
  pose proof (fval_abs Double x Hx) as F. cbn [fval] in F. rewrite Ev in F. cbn [nabs] in F. split; [|exact F].
  unfold fabs, fneg. cbv zeta. change (fbits Double - 1) with 63. change (2 ^ 64) with (2 * 2 ^ 63) in *.
  destruct (fnonneg Double x); [lia|]. destruct (Z.ltb_spec x (2 ^ 63)); lia.
Qed.
Lemma accumulate_sum_abs l : forall acc, accumulate RF_SUM_ABS_f64 l acc = Ok (fold_left dadd (map (fabs Double) l) acc).
Proof. induction l as [|x l IH]; intros acc; cbn [accumulate fold_left map]; [reflexivity|]. unfold RF_SUM_ABS_f64 at 1. cbn [rbind]. apply IH. Qed.

Lemma fabs_nonneg x c : num64 x = Fin c -> 0 <= c -> fabs Double x = x.
Proof. intros E H. apply nonneg_view. cbn [fval]. rewrite E. exact H. Qed.

Lemma map_abs_abs vs : map Z.abs (map Z.abs vs) = map Z.abs vs.
Proof. rewrite map_map. apply map_ext. intros. apply Z.abs_involutive. Qed.

Lemma sum_abs_close ans a vals vs : num64 ans = Fin a -> 0 <= a -> stand_for vals vs ->
  let sum := a + zsum (map Z.abs vs) + a in
  in_bounds (S (List.length vals)) sum ->
  exists v c, outcome RF_SUM_ABS_f64 vals ans = Ok v /\ num64 v = Fin c /\ close (S (List.length vals)) sum c sum.
Proof.
  intros Ea Pa HF. cbv zeta. intros HB. pose proof (stand_abs _ _ HF) as HF'.
  unfold outcome. rewrite accumulate_sum_abs. cbn [rbind]. unfold RF_SUM_ABS_f64.
  rewrite <- (map_length (fabs Double) vals) in *.
  destruct (fold_close _ _ HF' ans 0%nat a a a Ea ltac:(lia) (close_refl 0 a a Pa)) as (c & Ec & Hc & Pc).
  { rewrite map_abs_abs. apply (bounds_pred _ _ _ HB). lia. }
  cbn [Nat.add] in Hc. rewrite map_abs_abs in Hc. specialize (Pc Pa (abs_nonneg vs)).
  rewrite (fabs_nonneg _ _ Ec Pc).
  pose proof (abs_sum_nonneg vs) as N.
  destruct (add_close _ (a + zsum (map Z.abs vs)) (a + zsum (map Z.abs vs)) c _ a ans Ec Ea ltac:(lia) Hc) as (d & Ed & Hd & _).
  { rewrite (Z.abs_eq a) by lia. exact HB. }
  rewrite (Z.abs_eq a) in Hd by lia.
  exists (dadd ans (fold_left dadd (map (fabs Double) vals) ans)), d. split; [reflexivity|]. split; [|exact Hd].
  rewrite (dadd_comm_num _ _ _ _ Ea Ec). exact Ed.
Qed.

(** *** Exact sums *)

Lemma fold_exact k l ms : 0 <= k <= 2045 -> stand_for l (map (fun m => m * 2 ^ k) ms) -> forall acc m,
  num64 acc = Fin (m * 2 ^ k) -> Z.abs m + zsum (map Z.abs ms) < 2 ^ 53 ->
  num64 (fold_left dadd l acc) = Fin ((m + zsum ms) * 2 ^ k).
Proof.
  intros Hk HF. remember (map (fun m => m * 2 ^ k) ms) as vs eqn:Ev. revert ms Ev.
  induction HF as [|x v l vs [Hx E] HF IH]; intros ms Ev acc m Em HB; destruct ms as [|m' ms]; cbn [map] in Ev; try discriminate Ev; cbn [fold_left].
  - change (zsum []) with 0. rewrite Z.add_0_r. exact Em.
  - injection Ev as -> Ev. cbn [map] in HB. rewrite zsum_cons in *. pose proof (abs_sum_nonneg ms).
    destruct (dadd_exact acc x (m * 2 ^ k) (m' * 2 ^ k) k (m + m') Em E Hk) as [D _]; [lia|ring|].
    rewrite <- Z.mul_add_distr_r in D. rewrite (IH ms Ev (dadd acc x) (m + m') D) by lia. f_equal. ring.
Qed.

Lemma sum_exact k ans m vals ms : 0 <= k <= 2045 -> num64 ans = Fin (m * 2 ^ k) -> stand_for vals (map (fun m => m * 2 ^ k) ms) ->
  Z.abs m + zsum (map Z.abs ms) + Z.abs m < 2 ^ 53 ->
  exists v, outcome RF_SUM_f64 vals ans = Ok v /\ num64 v = Fin ((m + zsum ms + m) * 2 ^ k).
Proof.
  intros Hk Em HF HB. unfold outcome. rewrite accumulate_sum. cbn [rbind]. unfold RF_SUM_f64.
  pose proof (fold_exact k vals ms Hk HF ans m Em ltac:(lia)) as E.
  exists (dadd ans (fold_left dadd vals ans)). split; [reflexivity|].
  assert (HS : Z.abs (m + zsum ms) <= Z.abs m + zsum (map Z.abs ms)).
  { clear. induction ms as [|v vs IH]; cbn [map]; [change (zsum []) with 0; lia|]. rewrite !zsum_cons. lia. }
  destruct (dadd_exact ans _ _ _ k (m + zsum ms + m) Em E Hk) as [D _]; [lia|ring|]. rewrite D. f_equal. ring.
Qed.

(** *** NaN *)

Lemma dadd_nan x y : num64 x = NaN \/ num64 y = NaN -> dadd x y = QNAN.
Proof. unfold dadd. intros [->| ->]; [reflexivity|]. destruct (num64 x); reflexivity. Qed.
Lemma fold_nan l : fold_left dadd l QNAN = QNAN.
Proof. induction l as [|x l IH]; cbn [fold_left]; [reflexivity|]. rewrite dadd_nan; [exact IH|]. left. reflexivity. Qed.
Lemma fold_nan_in l : forall acc, Exists (fun x => num64 x = NaN) l -> fold_left dadd l acc = QNAN.
Proof.
  induction l as [|x l IH]; intros acc H; inversion H; subst; cbn [fold_left]; [|auto].
  rewrite dadd_nan; [apply fold_nan|]. right. assumption.
Qed.
Lemma sum_nan vals ans : num64 ans = NaN \/ Exists (fun x => num64 x = NaN) vals -> outcome RF_SUM_f64 vals ans = Ok QNAN.
Proof.
  intros H. unfold outcome. rewrite accumulate_sum. cbn [rbind]. unfold RF_SUM_f64. f_equal.
  apply dadd_nan. destruct H as [H|H]; [left; exact H|right; rewrite fold_nan_in by exact H; reflexivity].
Qed.
Lemma fabs_nan x : 0 <= x < 2 ^ 64 -> num64 x = NaN -> num64 (fabs Double x) = NaN.
Proof. intros Hx E. pose proof (fval_abs Double x Hx) as F. cbn [fval] in F. rewrite E in F. exact F. Qed.
Lemma sum_abs_nan vals ans : Forall (fpattern Double) vals -> num64 ans = NaN \/ Exists (fun x => num64 x = NaN) vals ->
  outcome RF_SUM_ABS_f64 vals ans = Ok QNAN.
Proof.
  intros HF H. unfold outcome. rewrite accumulate_sum_abs. cbn [rbind]. unfold RF_SUM_ABS_f64. f_equal. apply dadd_nan.
  destruct H as [H|H]; [left; exact H|right].
  rewrite fold_nan_in; [reflexivity|]. apply Exists_exists in H. destruct H as (x & I & E). apply Exists_exists.
  exists (fabs Double x). split; [apply in_map; exact I|]. rewrite Forall_forall in HF. apply fabs_nan; [apply (HF x I)|exact E].
Qed.
