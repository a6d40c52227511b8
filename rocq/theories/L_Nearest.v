(** [round_f64] gives the nearest [double]. *)

From Coq Require Import ZArith List Bool Lia.
From Verif Require Import Base M_Bytes M_Scan Spec_Tec L_Base L_TecMin L_ScanF L_Extract.
Import ListNotations.
Open Scope Z_scope.

(** The result is the multiple of a power of two nearest to the quotient. *)
Lemma round_f64_grid a b : 0 < a -> 0 < b -> a <= DMAX * b ->
  exists m k, num64 (round_f64 a b) = Fin (m * 2 ^ k) /\ 0 <= k <= 2045 /\ 0 <= m /\ 0 <= round_f64 a b < 2 ^ 63 /\
    2 * Z.abs (m * 2 ^ k * b - a * U) <= b * 2 ^ k /\ (0 < k -> 2 ^ 52 * (b * 2 ^ k) <= a * U).
Proof.
  intros Ha Hb HM. unfold round_f64. destruct (a =? 0) eqn:E0; zcmp.
  { lia. }
  destruct (exp2_spec a b ltac:(lia) Hb) as [F1 F2]. cbv zeta in F1, F2. cbv zeta.
  set (e := if a * 2 ^ Z.max 0 (- (Z.log2 a - Z.log2 b)) <? b * 2 ^ Z.max 0 (Z.log2 a - Z.log2 b)
            then Z.log2 a - Z.log2 b - 1 else Z.log2 a - Z.log2 b) in *. clearbody e.
  set (ex := Z.max (e - 52) (-1074)). fold (pw 2 (- ex)) (pw 2 ex).
  set (P := pw 2 ex). set (N := pw 2 (- ex)). set (k := ex + 1074). set (K := 2 ^ k).
  assert (HP : 0 < P) by (apply pw_pos; lia). assert (HN : 0 < N) by (apply pw_pos; lia).
  assert (Hk : 0 <= k) by (unfold k, ex; lia). assert (HK : 0 < K) by (apply Z.pow_pos_nonneg; lia).
  assert (HU : P * U = K * N).
  { pose proof (pw_add 2 (-1074) k ltac:(lia) Hk) as H. replace (-1074 + k) with ex in H by (unfold k; lia).
    change (pw 2 (- -1074)) with U in H. change (pw 2 (-1074)) with 1 in H. fold P N K in H. lia. }
  destruct (round_div_spec (a * N) (b * P)) as [M0 MS]; [nia|nia|].
  set (m := round_div (a * N) (b * P)) in *.
  (* bounds of m *)
  assert (P53 : 0 < 2 ^ 53) by reflexivity.
  assert (UP : a * N <= 2 ^ 53 * (b * P)).
  { pose proof (pw_add 2 (e + 1) (ex + 53 - (e + 1)) ltac:(lia) ltac:(unfold ex; lia)) as H1.
    replace (e + 1 + (ex + 53 - (e + 1))) with (ex + 53) in H1 by lia.
    pose proof (pw_add 2 ex 53 ltac:(lia) ltac:(lia)) as H2. fold P N in H2.
    pose proof (pw_pos 2 (e + 1) ltac:(lia)) as Q1. pose proof (pw_pos 2 (- (e + 1)) ltac:(lia)) as Q2.
    pose proof (pw_pos 2 (ex + 53) ltac:(lia)) as Q3. pose proof (pw_pos 2 (- (ex + 53)) ltac:(lia)) as Q4.
    assert (Q5 : 1 <= 2 ^ (ex + 53 - (e + 1))) by (apply (Z.pow_le_mono_r 2 0); unfold ex; lia).
    set (p1 := pw 2 (e + 1)) in *. set (n1 := pw 2 (- (e + 1))) in *. set (p2 := pw 2 (ex + 53)) in *. set (n2 := pw 2 (- (ex + 53))) in *.
    set (D := 2 ^ (ex + 53 - (e + 1))) in *.
    (* a/b < p1/n1 <= p2/n2 = 2^53 P/N *)
    assert (G : a * n2 <= b * p2).
    { apply (Z.mul_le_mono_pos_r _ _ n1 Q2). replace (b * p2 * n1) with (b * (p2 * n1)) by ring. rewrite H1.
      replace (b * (D * p1 * n2)) with (D * (b * p1) * n2) by ring. replace (a * n2 * n1) with (a * n1 * n2) by ring.
      apply Z.mul_le_mono_nonneg_r; [lia|]. nia. }
    apply (Z.mul_le_mono_pos_r _ _ n2 Q4). replace (2 ^ 53 * (b * P) * n2) with (b * (2 ^ 53 * P * n2)) by ring. rewrite <- H2.
    replace (a * N * n2) with (a * n2 * N) by ring. replace (b * (p2 * N)) with (b * p2 * N) by ring.
    apply Z.mul_le_mono_nonneg_r; lia. }
  assert (Mup : m <= 2 ^ 53) by (apply round_div_up; [nia|nia|exact UP]).
  assert (LOW : 0 < k -> 2 ^ 52 * (b * P) <= a * N).
  { intros Hk'. assert (Eex : e = ex + 52) by (unfold k, ex in *; lia).
    pose proof (pw_add 2 ex 52 ltac:(lia) ltac:(lia)) as H2. fold P N in H2. rewrite <- Eex in H2.
    pose proof (pw_pos 2 (- e) ltac:(lia)) as Q2. set (p1 := pw 2 e) in *. set (n1 := pw 2 (- e)) in *.
    apply (Z.mul_le_mono_pos_r _ _ n1 Q2). replace (2 ^ 52 * (b * P) * n1) with (b * (2 ^ 52 * P * n1)) by ring. rewrite <- H2.
    replace (b * (p1 * N)) with (b * p1 * N) by ring. replace (a * N * n1) with (a * n1 * N) by ring.
    apply Z.mul_le_mono_nonneg_r; lia. }
  assert (Mlow : k = 0 /\ 0 <= m \/ 2 ^ 52 <= m).
  { destruct (Z.eq_dec k 0) as [->|Hn]; [left; auto|right]. apply round_div_low; [nia|nia|]. apply LOW. lia. }
  (* no overflow *)
  assert (Hexp : k <= 2045).
  { destruct (Z_le_gt_dec k 2045); [assumption|exfalso]. specialize (LOW ltac:(lia)).
    assert (E1 : 2 ^ 52 * P > DMAX * N).
    { unfold P, N, pw. rewrite (Z.max_l 0 (- ex)), (Z.max_r 0 ex) by (unfold k in *; lia). change (2 ^ 0) with 1.
      assert (2 ^ 972 <= 2 ^ ex) by (apply Z.pow_le_mono_r; unfold k in *; lia).
      assert (DMAX < 2 ^ 52 * 2 ^ 972) by (apply Z.ltb_lt; vm_compute; reflexivity).
      assert (0 < 2 ^ 52) by reflexivity. revert H H0 H1. generalize (2 ^ 52), (2 ^ 972), (2 ^ ex), DMAX. clear. intros. nia. }
    revert LOW E1 HM. clear -HN HP Hb. generalize (2 ^ 52), DMAX. intros. assert (a * N <= z0 * b * N) by nia. nia. }
  assert (Htop : k * 2 ^ 52 + m < 2047 * 2 ^ 52).
  { destruct (Z.eq_dec k 2045) as [E|E].
    - assert (m <= 2 ^ 53 - 1).
      { apply round_div_up; [nia|nia|]. unfold N, P, pw. rewrite (Z.max_l 0 (- ex)), (Z.max_r 0 ex) by (unfold k in *; lia).
        replace ex with 971 by (unfold k in *; lia). change (2 ^ 0) with 1. unfold DMAX in HM. rewrite Z.mul_1_r.
        replace ((2 ^ 53 - 1) * (b * 2 ^ 971)) with ((2 ^ 53 - 1) * 2 ^ 971 * b) by ring. exact HM. }
      rewrite E. change (2 ^ 53) with (2 * 2 ^ 52) in H. revert H. assert (0 < 2 ^ 52) by reflexivity. revert H. generalize (2 ^ 52). clear. intros. lia.
    - change (2 ^ 53) with (2 * 2 ^ 52) in Mup. revert Mup. assert (G : 0 < 2 ^ 52) by reflexivity. revert G. generalize (2 ^ 52).
      intros q G Mup. assert (k <= 2044) by lia. nia. }
  rewrite Z.min_l by lia.
  exists m, k. split; [apply num64_bits; assumption|]. split; [lia|]. split; [exact M0|]. split.
  { change (2 ^ 63) with (2048 * 2 ^ 52). assert (G : 0 < 2 ^ 52) by reflexivity. revert G Htop. generalize (2 ^ 52). clear -Hk M0. intros. nia. }
  (* error *)
  assert (ER : 2 * Z.abs (m * K * b - a * U) <= b * K).
  { apply (Z.mul_le_mono_pos_r _ _ N HN). replace (b * K * N) with (b * (K * N)) by ring. rewrite <- HU.
    replace (b * (P * U)) with ((b * P) * U) by ring.
    replace (2 * Z.abs (m * K * b - a * U) * N) with (2 * Z.abs (m * (b * P) - a * N) * U).
    - apply Z.mul_le_mono_nonneg_r; [pose proof U_pos; lia|]. replace (m * (b * P) - a * N) with (m * (b * P) - a * N) by ring. exact MS.
    - pose proof U_pos. rewrite <- !Z.mul_assoc. f_equal. rewrite <- (Z.abs_eq N) at 2 by lia. rewrite <- (Z.abs_eq U) at 1 by lia.
      rewrite <- !Z.abs_mul. f_equal. replace ((m * (b * P) - a * N) * U) with (m * b * (P * U) - a * N * U) by ring. rewrite HU. ring. }
  split; [exact ER|]. intros Hk'. specialize (LOW Hk').
  apply (Z.mul_le_mono_pos_r _ _ N HN). fold K. replace (2 ^ 52 * (b * K) * N) with (2 ^ 52 * b * (K * N)) by ring. rewrite <- HU.
  replace (2 ^ 52 * b * (P * U)) with (2 ^ 52 * (b * P) * U) by ring. replace (a * U * N) with (a * N * U) by ring.
  apply Z.mul_le_mono_nonneg_r; [pose proof U_pos; lia|exact LOW].
Qed.

(** Every finite number is a multiple of a power of two, with fewer than 54 digits. *)
Lemma finite_parts y v : num64 y = Fin v -> exists m j, Z.abs v = m * 2 ^ j /\ 0 <= j /\ 0 <= m < 2 ^ 53.
Proof.
  unfold num64, fnum. cbv zeta. change (2 ^ 11 - 1) with 2047.
  pose proof (Z.mod_pos_bound y (2 ^ 52) ltac:(reflexivity)) as Hm. pose proof (Z.mod_pos_bound (y / 2 ^ 52) (2 ^ 11) ltac:(reflexivity)) as He.
  set (e := (y / 2 ^ 52) mod 2 ^ 11) in *. set (m := y mod 2 ^ 52) in *. clearbody e m.
  destruct (e =? 2047) eqn:E; [destruct (m =? 0); [destruct (_ =? 0)|]; discriminate|].
  intros H. apply Fin_inj in H.
  assert (V : Z.abs v = if e =? 0 then m else (2 ^ 52 + m) * 2 ^ (e - 1)).
  { assert (N : 0 <= if e =? 0 then m else (2 ^ 52 + m) * 2 ^ (e - 1)).
    { destruct (e =? 0) eqn:E0; zcmp; [lia|]. pose proof (Z.pow_pos_nonneg 2 (e - 1) ltac:(lia) ltac:(lia)). assert (0 < 2 ^ 52) by reflexivity. nia. }
    destruct (_ =? 0) in H; subst v; [apply Z.abs_eq; exact N|rewrite Z.abs_opp; apply Z.abs_eq; exact N]. }
  assert (P : 2 ^ 53 = 2 * 2 ^ 52) by reflexivity. assert (Q : 0 < 2 ^ 52) by reflexivity.
  destruct (e =? 0) eqn:E0; zcmp.
  - exists m, 0. rewrite V. change (2 ^ 0) with 1. lia.
  - exists (2 ^ 52 + m), (e - 1). split; [exact V|]. lia.
Qed.

(** No finite number is nearer. *)
Lemma round_f64_nearest a b : 0 < a -> 0 < b -> a <= DMAX * b ->
  exists w, num64 (round_f64 a b) = Fin w /\ 0 <= w /\ 0 <= round_f64 a b < 2 ^ 63 /\
    forall y v, num64 y = Fin v -> Z.abs (w * b - a * U) <= Z.abs (v * b - a * U).
Proof.
  intros Ha Hb HM. destruct (round_f64_grid a b Ha Hb HM) as (m & k & E & Hk & M0 & R & NEAR & LOW).
  exists (m * 2 ^ k). split; [exact E|]. assert (HK : 0 < 2 ^ k) by (apply Z.pow_pos_nonneg; lia). split; [nia|]. split; [exact R|].
  intros y v Hv. destruct (finite_parts y v Hv) as (m' & j & Ev & Hj & Hm').
  pose proof U_pos as HU. set (K := 2 ^ k) in *. set (X := a * U) in *. assert (HX : 0 < X) by (unfold X; nia).
  (* any multiple of K is no nearer *)
  assert (GRID : forall q, Z.abs (m * K * b - X) <= Z.abs (q * K * b - X)).
  { intros q. destruct (Z.eq_dec q m) as [->|Nq]; [lia|]. set (G := K * b). assert (HG : 0 < G) by (unfold G; nia).
    replace (m * K * b) with (m * G) by (unfold G; ring). replace (q * K * b) with (q * G) by (unfold G; ring).
    replace (m * K * b) with (m * G) in NEAR by (unfold G; ring). replace (b * K) with G in NEAR by (unfold G; ring).
    revert NEAR. clearbody G X. clear - HG Nq. intros NEAR. assert (G <= Z.abs (q * G - m * G)).
    { replace (q * G - m * G) with ((q - m) * G) by ring. rewrite Z.abs_mul, (Z.abs_eq G) by lia. assert (1 <= Z.abs (q - m)) by lia. nia. }
    lia. }
  destruct (Z_lt_le_dec v 0) as [Nv|Nv].
  { specialize (GRID 0). change (0 * K * b) with 0 in GRID. assert (v * b < 0) by nia. lia. }
  rewrite Z.abs_eq in Ev by lia.
  destruct (Z_le_gt_dec k j) as [L|L].
  { (* v is a multiple of K *)
    replace v with (m' * 2 ^ (j - k) * K); [apply GRID|]. rewrite Ev. unfold K. rewrite <- Z.mul_assoc, <- Z.pow_add_r by lia. do 2 f_equal. lia. }
  (* v is below 2^52 K *)
  specialize (LOW ltac:(lia)). specialize (GRID (2 ^ 52)).
  assert (V : v <= 2 ^ 52 * K).
  { rewrite Ev. assert (EK : K = 2 ^ j * 2 * 2 ^ (k - j - 1)) by (unfold K; rewrite <- (Z.pow_1_r 2) at 3; rewrite <- !Z.pow_add_r by lia; f_equal; lia). rewrite EK. clear EK.
    assert (1 <= 2 ^ (k - j - 1)) by (apply (Z.pow_le_mono_r 2 0); lia). assert (0 < 2 ^ j) by (apply Z.pow_pos_nonneg; lia).
    change (2 ^ 53) with (2 * 2 ^ 52) in Hm'. assert (Q : 0 < 2 ^ 52) by reflexivity. revert Q Hm' H H0. clear. generalize (2 ^ 52), (2 ^ j), (2 ^ (k - j - 1)). intros q x z Q M Z1 X0.
    assert (m' * x <= 2 * q * x) by nia. assert (2 * q * x <= q * (x * 2 * z)) by nia. lia. }
  assert (V2 : v * b <= 2 ^ 52 * K * b) by nia. replace (2 ^ 52 * (b * K)) with (2 ^ 52 * K * b) in LOW by ring. lia.
Qed.

(** The opposite of a finite number is one. *)
Lemma finite_neg y v : num64 y = Fin v -> exists y', num64 y' = Fin (- v).
Proof.
  intros H. exists (y + 2 ^ 63). revert H. unfold num64, fnum. cbv zeta. change (11 + 52) with 63.
  assert (A : (y + 2 ^ 63) mod 2 ^ 52 = y mod 2 ^ 52) by (change (2 ^ 63) with (2048 * 2 ^ 52); apply Z.mod_add; discriminate).
  assert (B : (y + 2 ^ 63) / 2 ^ 52 mod 2 ^ 11 = y / 2 ^ 52 mod 2 ^ 11).
  { change (2 ^ 63) with (2048 * 2 ^ 52). rewrite Z.div_add by discriminate. change (2 ^ 11) with 2048. rewrite <- (Z.mul_1_l 2048) at 1. apply Z.mod_add. discriminate. }
  assert (C : (y + 2 ^ 63) / 2 ^ 63 = y / 2 ^ 63 + 1) by (rewrite <- (Z.mul_1_l (2 ^ 63)) at 1; apply Z.div_add; discriminate).
  rewrite A, B, C. set (e := _ mod 2 ^ 11). set (m := _ mod 2 ^ 52). set (s := y / 2 ^ 63). clearbody e m s. clear.
  set (a := if e =? 0 then _ else _). clearbody a.
  destruct (e =? 2 ^ 11 - 1); [destruct (m =? 0); [destruct (_ =? 0)|]; discriminate|].
  intros H. apply Fin_inj in H. f_equal. subst v.
  pose proof (Z.mod_pos_bound s 2 ltac:(lia)). pose proof (Z.div_mod s 2 ltac:(lia)).
  assert (D : (s + 1) mod 2 = 1 - s mod 2).
  { symmetry. destruct (Z.eq_dec (s mod 2) 0) as [E|E]; [apply (Z.mod_unique _ _ (s / 2))|apply (Z.mod_unique _ _ (s / 2 + 1))]; lia. }
  rewrite D. destruct (s mod 2 =? 0) eqn:E, (1 - s mod 2 =? 0) eqn:F; zcmp; lia.
Qed.
