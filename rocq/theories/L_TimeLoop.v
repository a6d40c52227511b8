(** Lemmas for P_TimeLoop.v *)

From Coq Require Import ZArith Ascii String List Bool Lia.
From Verif Require Import Base M_Bytes M_Scan M_Flags M_Loop M_Reduce M_FSum M_FMul M_Print Spec_Tec Spec Spec_Loop Spec_FSum Spec_FMul.
From Verif Require Import L_Base L_Loop L_Text L_TecMin L_ScanF L_Near L_Print L_Nearest L_Reduce L_FSum L_FMul.
From Verif Require Import M_Heap M_World M_Client M_TimeLoop Spec_Client Spec_TimeLoop.
From Verif Require M_Examples.
Import ListNotations.
Open Scope list_scope.
Open Scope Z_scope.

(** ** Powers *)

Lemma one_add n m : one (n + m) = one n * one m.
Proof. unfold one. rewrite <- Z.pow_add_r by lia. f_equal. lia. Qed.
Lemma up_add n m : up (n + m) = up n * up m.
Proof. unfold up. rewrite <- Z.pow_add_r by lia. f_equal. lia. Qed.
Lemma down_add n m : down (n + m) = down n * down m.
Proof. unfold down. rewrite <- Z.pow_add_r by lia. f_equal. lia. Qed.

Lemma down_up n : down n * up n <= one (n + n).
Proof.
  rewrite one_add. induction n as [|n IH]; [reflexivity|]. rewrite down_S, up_S, one_S. assert (Q : 0 < 2 ^ 53) by reflexivity.
  pose proof (down_pos n) as D. pose proof (up_pos n) as V. revert IH Q D V. generalize (2 ^ 53), (down n), (up n), (one n). clear. intros B d u o IH Q D V.
  replace ((B - 1) * d * ((B + 1) * u)) with ((B * B - 1) * (d * u)) by ring. replace (B * o * (B * o)) with (B * B * (o * o)) by ring. nia.
Qed.

Lemma down_up2 n : one (n + n + n) <= up (n + n) * down n.
Proof.
  rewrite !one_add, up_add. induction n as [|n IH]; [reflexivity|]. rewrite down_S, up_S, one_S. assert (Q : 2 ^ 53 >= 2) by (intros X; discriminate X).
  pose proof (one_pos n) as O. revert IH Q O. generalize (2 ^ 53), (down n), (up n), (one n). clear. intros B d u o IH Q O.
  replace (B * o * (B * o) * (B * o)) with (B * B * B * (o * o * o)) by ring.
  replace ((B + 1) * u * ((B + 1) * u) * ((B - 1) * d)) with ((B + 1) * (B + 1) * (B - 1) * (u * u * d)) by ring.
  assert (E : (B + 1) * (B + 1) * (B - 1) = B * B * B + (B * B - B - 1)) by ring. rewrite E.
  assert (0 <= B * B - B - 1) by nia. assert (0 <= B * B * B) by nia. assert (0 < o * o * o) by nia. nia.
Qed.

(** ** Quotients *)

Lemma quot_within n m x y a b p q r s : 0 <= x < 2 ^ 63 -> 0 <= y < 2 ^ 63 -> num64 x = Fin a -> num64 y = Fin b ->
  0 < p -> 0 < q -> 0 < r -> 0 < s -> within n a p q -> within m b r s -> Z.of_nat n <= 2 ^ 52 -> Z.of_nat m <= 2 ^ 52 ->
  p * s <= 2 ^ 100 * (q * r) -> q * r <= 2 ^ 100 * (p * s) ->
  exists w, num64 (ddiv x y) = Fin w /\ 0 <= ddiv x y < 2 ^ 63 /\ within (n + (m + m) + 1) w (p * s) (q * r).
Proof.
  intros Hx Hy Ex Ey Hp Hq Hr Hs Wa Wb Hn Hm M1 M2. pose proof U_pos as PU. pose proof U_big as BU.
  pose proof (within_nonneg n a p q ltac:(lia) Hq Wa) as A0. pose proof (within_nonneg m b r s ltac:(lia) Hs Wb) as B0.
  pose proof (within_half n a p q Hn ltac:(lia) Wa) as [A1 A2]. pose proof (within_half m b r s Hm ltac:(lia) Wb) as [B1 B2].
  assert (Pa : 0 < a) by nia. assert (Pb : 0 < b) by nia.
  assert (K1 : a * (q * r) <= 4 * (b * (p * s))).
  { apply (Z.mul_le_mono_pos_r _ _ U PU). replace (a * (q * r) * U) with (a * q * (r * U)) by ring. replace (4 * (b * (p * s)) * U) with (2 * (p * U) * (2 * (b * s))) by ring.
    apply Z.mul_le_mono_nonneg; [nia|lia|nia|lia]. }
  assert (K2 : b * (p * s) <= 4 * (a * (q * r))).
  { apply (Z.mul_le_mono_pos_r _ _ U PU). replace (b * (p * s) * U) with (b * s * (p * U)) by ring. replace (4 * (a * (q * r)) * U) with (2 * (r * U) * (2 * (a * q))) by ring.
    apply Z.mul_le_mono_nonneg; [nia|lia|nia|lia]. }
  assert (L1 : a <= 2 ^ 102 * b).
  { change (2 ^ 102) with (4 * 2 ^ 100). apply (Z.mul_le_mono_pos_r _ _ (q * r)); [nia|]. clear - K1 M1 Pb. revert K1 M1. generalize (2 ^ 100), (q * r), (p * s). intros. nia. }
  assert (L2 : b <= 2 ^ 102 * a).
  { change (2 ^ 102) with (4 * 2 ^ 100). apply (Z.mul_le_mono_pos_r _ _ (p * s)); [nia|]. clear - K2 M2 Pa. revert K2 M2. generalize (2 ^ 100), (q * r), (p * s). intros. nia. }
  assert (DD : ddiv x y = round_f64 a b).
  { unfold ddiv. rewrite Ex, Ey. destruct (Z.eqb_spec b 0); [lia|]. rewrite dsign_plus by assumption. rewrite !Z.abs_eq by lia. reflexivity. }
  destruct (round_rel a b Pa Pb) as (w & Ew & W0 & Rw & R1 & R2).
  { apply (Z.le_trans _ (2 ^ 102 * b)); [exact L1|]. apply Z.mul_le_mono_nonneg_r; [lia|]. pose proof dmax_U. 
    apply (Z.le_trans _ (2 ^ 1023)); [apply Z.leb_le; reflexivity|apply consts_mul]. }
  { apply (Z.le_trans _ (2 ^ 52 * (2 ^ 102 * a))); [apply Z.mul_le_mono_nonneg_l; [apply Z.leb_le; reflexivity|exact L2]|].
    rewrite Z.mul_assoc, (Z.mul_comm a). apply Z.mul_le_mono_nonneg_r; [lia|]. apply (Z.le_trans _ (2 ^ 200)); [apply Z.leb_le; reflexivity|exact BU]. }
  exists w. rewrite DD. split; [exact Ew|split; [exact Rw|]].
  rewrite within_def in *. rewrite Nat.add_1_r, down_S, one_S, up_S, !down_add, !up_add, !one_add.
  pose proof (down_up m) as T1. rewrite one_add in T1. pose proof (down_up2 m) as T2. rewrite !one_add, up_add in T2. pose proof (down_one m) as T3.
  pose proof (one_pos m) as Om. pose proof (one_pos n) as On. pose proof (up_pos m) as Um. pose proof (up_pos n) as Un. pose proof (down_pos m) as Dm. pose proof (down_pos n) as Dn.
  assert (HB : 1 < 2 ^ 53) by reflexivity. destruct Wa as [Wa1 Wa2]. destruct Wb as [Wb1 Wb2].
  clear DD Ew Rw Ex Ey Hx Hy M1 M2 K1 K2 L1 L2 A1 A2 B1 B2 BU Hn Hm.
  revert T1 T2 T3 Om On Um Un Dm Dn HB Wa1 Wa2 Wb1 Wb2 R1 R2 PU.
  generalize (down n), (up n), (one n), (down m), (up m), (one m), (2 ^ 53), U. intros dn un on dm um om B V T1 T2 T3 Om On Um Un Dm Dn HB Wa1 Wa2 Wb1 Wb2 R1 R2 PU.
  split.
  - apply (Z.mul_le_mono_pos_r _ _ (V * um)); [nia|].
    apply (Z.le_trans _ ((om * om * om) * s * (B - 1) * V * (dn * (p * V)))).
    + replace ((B - 1) * (dn * (dm * dm)) * (p * s * V) * (V * um)) with ((dm * (dm * um)) * (s * (B - 1) * V * (dn * (p * V)))) by ring.
      replace ((om * om * om) * s * (B - 1) * V * (dn * (p * V))) with ((om * (om * om)) * (s * (B - 1) * V * (dn * (p * V)))) by ring.
      apply Z.mul_le_mono_nonneg_r; [repeat apply Z.mul_nonneg_nonneg; lia|]. apply Z.mul_le_mono_nonneg; [lia|exact T3|apply Z.mul_nonneg_nonneg; lia|exact T1].
    + apply (Z.le_trans _ ((om * om * om) * s * ((B - 1) * (a * V)) * (on * q))).
      * replace (om * om * om * s * (B - 1) * V * (dn * (p * V))) with ((om * om * om * s * (B - 1) * V) * (dn * (p * V))) by ring.
        replace (om * om * om * s * ((B - 1) * (a * V)) * (on * q)) with ((om * om * om * s * (B - 1) * V) * (on * (a * q))) by ring.
        apply Z.mul_le_mono_nonneg_l; [repeat apply Z.mul_nonneg_nonneg; lia|exact Wa1].
      * apply (Z.le_trans _ ((om * om * om) * s * (B * (w * b)) * (on * q))).
        -- replace (om * om * om * s * ((B - 1) * (a * V)) * (on * q)) with ((om * om * om * s * on * q) * ((B - 1) * (a * V))) by ring.
           replace (om * om * om * s * (B * (w * b)) * (on * q)) with ((om * om * om * s * on * q) * (B * (w * b))) by ring.
           apply Z.mul_le_mono_nonneg_l; [repeat apply Z.mul_nonneg_nonneg; lia|exact R1].
        -- replace (om * om * om * s * (B * (w * b)) * (on * q)) with ((om * om * B * w * on * q) * (om * (b * s))) by ring.
           replace (B * (on * (om * om)) * (w * (q * r)) * (V * um)) with ((om * om * B * w * on * q) * (um * (r * V))) by ring.
           apply Z.mul_le_mono_nonneg_l; [repeat apply Z.mul_nonneg_nonneg; lia|exact Wb2].
  - apply (Z.mul_le_mono_pos_r _ _ (V * dm)); [nia|].
    apply (Z.le_trans _ ((om * om * om) * s * (B + 1) * V * (un * (p * V)))).
    2: { replace ((B + 1) * (un * (um * um)) * (p * s * V) * (V * dm)) with ((um * um * dm) * (s * (B + 1) * V * (un * (p * V)))) by ring.
      replace ((om * om * om) * s * (B + 1) * V * (un * (p * V))) with ((om * om * om) * (s * (B + 1) * V * (un * (p * V)))) by ring.
      apply Z.mul_le_mono_nonneg_r; [repeat apply Z.mul_nonneg_nonneg; lia|]. exact T2. }
    apply (Z.le_trans _ ((om * om * om) * s * ((B + 1) * (a * V)) * (on * q))).
    2: { replace (om * om * om * s * (B + 1) * V * (un * (p * V))) with ((om * om * om * s * (B + 1) * V) * (un * (p * V))) by ring.
        replace (om * om * om * s * ((B + 1) * (a * V)) * (on * q)) with ((om * om * om * s * (B + 1) * V) * (on * (a * q))) by ring.
        apply Z.mul_le_mono_nonneg_l; [repeat apply Z.mul_nonneg_nonneg; lia|exact Wa2]. }
    apply (Z.le_trans _ ((om * om * om) * s * (B * (w * b)) * (on * q))).
    2: { replace (om * om * om * s * ((B + 1) * (a * V)) * (on * q)) with ((om * om * om * s * on * q) * ((B + 1) * (a * V))) by ring.
           replace (om * om * om * s * (B * (w * b)) * (on * q)) with ((om * om * om * s * on * q) * (B * (w * b))) by ring.
           apply Z.mul_le_mono_nonneg_l; [repeat apply Z.mul_nonneg_nonneg; lia|exact R2]. }
    replace (om * om * om * s * (B * (w * b)) * (on * q)) with ((om * om * B * w * on * q) * (om * (b * s))) by ring.
    replace (B * (on * (om * om)) * (w * (q * r)) * (V * dm)) with ((om * om * B * w * on * q) * (dm * (r * V))) by ring.
    apply Z.mul_le_mono_nonneg_l; [repeat apply Z.mul_nonneg_nonneg; lia|exact Wb1].
Qed.

(** Comparing two numbers that are known up to roundings. *)
Lemma within_lt n m x y p q r s : 0 < p -> 0 < q -> 0 < r -> 0 < s -> within n x p q -> within m y r s ->
  Z.of_nat n < 2 ^ 53 -> Z.of_nat m < 2 ^ 53 ->
  2 ^ 53 * 2 ^ 53 * (p * s) < (2 ^ 53 - Z.of_nat n) * (2 ^ 53 - Z.of_nat m) * (r * q) -> x < y.
Proof.
  intros Hp Hq Hr Hs Wx Wy Hn Hm H. pose proof U_pos as PU. pose proof (up_le n) as A. pose proof (down_le m) as D.
  pose proof (one_pos n) as On. pose proof (one_pos m) as Om. rewrite within_def in *. destruct Wx as [_ X]. destruct Wy as [Y _].
  set (N := 2 ^ 53 - Z.of_nat n) in *. set (K := 2 ^ 53 - Z.of_nat m) in *. assert (N0 : 0 < N) by (unfold N; lia). assert (K0 : 0 < K) by (unfold K; lia).
  clearbody N K. assert (HB : 0 < 2 ^ 53) by reflexivity. clear Hn Hm. revert H A D On Om X Y PU HB.
  generalize (up n), (one n), (down m), (one m), (2 ^ 53), U. intros u o d e B V H A D On Om X Y PU HB.
  assert (X' : x * q * N <= B * (p * V)).
  { apply (Z.mul_le_mono_pos_r _ _ o On). apply (Z.le_trans _ (u * (p * V) * N)); [|].
    - replace (x * q * N * o) with (o * (x * q) * N) by ring. apply Z.mul_le_mono_nonneg_r; [lia|exact X].
    - replace (u * (p * V) * N) with ((u * N) * (p * V)) by ring. replace (B * (p * V) * o) with ((B * o) * (p * V)) by ring. apply Z.mul_le_mono_nonneg_r; [nia|exact A]. }
  assert (Y' : K * (r * V) <= B * (y * s)).
  { apply (Z.mul_le_mono_pos_r _ _ e Om). apply (Z.le_trans _ (B * d * (r * V))).
    - replace (K * (r * V) * e) with (e * K * (r * V)) by ring. apply Z.mul_le_mono_nonneg_r; [nia|exact D].
    - replace (B * d * (r * V)) with (B * (d * (r * V))) by ring. replace (B * (y * s) * e) with (B * (e * (y * s))) by ring. apply Z.mul_le_mono_nonneg_l; [lia|exact Y]. }
  apply (Z.mul_lt_mono_pos_r (B * q * N * s)); [repeat apply Z.mul_pos_pos; lia|].
  apply (Z.le_lt_trans _ (B * (p * V) * (B * s))).
  { replace (x * (B * q * N * s)) with (x * q * N * (B * s)) by ring. apply Z.mul_le_mono_nonneg_r; [nia|exact X']. }
  apply (Z.lt_le_trans _ (K * (r * V) * (N * q))).
  { replace (B * (p * V) * (B * s)) with (B * B * (p * s) * V) by ring. replace (K * (r * V) * (N * q)) with (N * K * (r * q) * V) by ring. apply Z.mul_lt_mono_pos_r; assumption. }
  replace (y * (B * q * N * s)) with (B * (y * s) * (N * q)) by ring. apply Z.mul_le_mono_nonneg_r; [nia|exact Y'].
Qed.

(** ** The sum of equal steps *)

Definition flow_at (dt : Z) (k : nat) : Z := Nat.iter k (fun f => dadd f dt) 0.

Lemma flow_within m dt b p q : num64 dt = Fin b -> 0 < p -> 0 < q -> within m b p q -> forall n,
  Z.of_nat (m + n) <= 2 ^ 52 -> Z.of_nat n * p <= 2 ^ 97 * q ->
  exists c, num64 (flow_at dt n) = Fin c /\ 0 <= flow_at dt n < 2 ^ 63 /\ within (m + n) c (Z.of_nat n * p) q.
Proof.
  intros Eb Hp Hq Wb. pose proof U_pos as PU. pose proof (within_nonneg m b p q ltac:(lia) Hq Wb) as B0.
  induction n as [|n IH]; intros Hn HT.
  - exists 0. split; [reflexivity|split; [split; reflexivity || discriminate|]]. rewrite Nat.add_0_r. apply within_zero.
  - destruct IH as (a & Ea & Ra & Wa); [lia|rewrite Nat2Z.inj_succ in HT; lia|].
    assert (Wb' : within (m + n) b p q) by (apply (within_from m); [lia|lia|nia|exact Wb]).
    assert (NP : 0 <= Z.of_nat n * p) by (apply Z.mul_nonneg_nonneg; lia).
    pose proof (within_half (m + n) a _ q ltac:(lia) NP Wa) as [_ HA]. pose proof (within_half (m + n) b p q ltac:(lia) ltac:(lia) Wb') as [_ HB].
    destruct (add_within (m + n) (flow_at dt n) dt a b (Z.of_nat n * p) p q Ra Ea Eb NP ltac:(lia) Hq Wa Wb') as (c & Ec & Rc & Wc).
    + apply (Z.mul_le_mono_pos_r _ _ (2 * q)); [lia|].
      apply (Z.le_trans _ (4 * (Z.of_nat (S n) * p) * U)); [rewrite Nat2Z.inj_succ; lia|].
      apply (Z.le_trans _ (4 * (2 ^ 97 * q) * U)); [apply Z.mul_le_mono_nonneg_r; lia|].
      change (2 ^ 100) with (8 * 2 ^ 97). assert (0 <= 2 ^ 97 * q * U) by (apply Z.mul_nonneg_nonneg; [apply Z.mul_nonneg_nonneg; [discriminate|lia]|lia]). lia.
    + exists c. split; [exact Ec|split; [exact Rc|]]. rewrite Nat.add_succ_r, Nat2Z.inj_succ. replace (Z.succ (Z.of_nat n) * p) with (Z.of_nat n * p + p) by ring. exact Wc.
Qed.

Lemma dge_fin x y a b : num64 x = Fin a -> num64 y = Fin b -> dge x y = (b <=? a).
Proof. intros Ex Ey. unfold dge. rewrite Ex, Ey. cbn [num_lt]. destruct (Z.leb_spec b a), (Z.ltb_spec a b); cbn; lia || reflexivity. Qed.

Lemma least_or (P : nat -> bool) n : (forall i, (1 <= i <= n)%nat -> P i = false) \/
  exists k, (1 <= k <= n)%nat /\ P k = true /\ forall i, (1 <= i < k)%nat -> P i = false.
Proof.
  induction n as [|n [IH|(k & A & B & C)]].
  - left. lia.
  - destruct (P (S n)) eqn:E.
    + right. exists (S n). split; [lia|]. split; [exact E|]. intros. apply IH. lia.
    + left. intros i Hi. destruct (Nat.eq_dec i (S n)) as [->|]; [exact E|]. apply IH. lia.
  - right. exists k. split; [lia|]. auto.
Qed.

(** ** The loop *)

Lemma uwrap_succ j : uwrap (uwrap j + 1) = uwrap (j + 1).
Proof. unfold uwrap. apply Zplus_mod_idemp_l. Qed.

Lemma flow_S dt k : flow_at dt (S k) = dadd (flow_at dt k) dt.
Proof. reflexivity. Qed.

Lemma loop_counts {S} dt stop print (body : M S unit) : forall d j s s' fuel n ls,
  (d > 0)%nat -> (forall i, (j < i < j + d)%nat -> dge (flow_at dt i) stop = false) -> dge (flow_at dt (j + d)) stop = true ->
  M_Examples.passes d body s = Ret s' tt -> (d <= fuel)%nat ->
  exists nx new, for_ever fuel dt stop print body (s, TS (uwrap (Z.of_nat j)) (flow_at dt j) (flow_at print n) ls) =
    Ret (s', TS (uwrap (Z.of_nat (j + d))) (flow_at dt (j + d)) nx (ls ++ new)) tt /\
    forall L, (forall f, dge f (flow_at print L) = true -> dge f stop = true) -> (n <= L)%nat -> (n + List.length new <= L)%nat.
Proof.
  induction d as [|d IH]; intros j s s' fuel n ls Hd HF HT HP Hfuel; [lia|].
  destruct fuel as [|fuel]; [lia|]. cbn [for_ever M_Examples.passes] in *. unfold bind, on_fst in *.
  destruct (body s) as [s1 []|? ?|]; [|discriminate|discriminate]. cbn [step flowtime time_next_print lines].
  rewrite uwrap_succ. replace (Z.of_nat j + 1) with (Z.of_nat (Datatypes.S j)) by lia. rewrite <- flow_S.
  destruct d as [|d].
  - replace (j + 1)%nat with (Datatypes.S j) in * by lia. rewrite HT. cbn in HP. injection HP as ->. exists (flow_at print n), []. rewrite app_nil_r. cbn [List.length]. split; [reflexivity|lia].
  - rewrite (HF (Datatypes.S j)) by lia. replace (j + Datatypes.S (Datatypes.S d))%nat with (Datatypes.S j + Datatypes.S d)%nat in * by lia.
    destruct (dge (flow_at dt (Datatypes.S j)) (flow_at print n)) eqn:E.
    + rewrite <- flow_S. destruct (IH (Datatypes.S j) s1 s' fuel (Datatypes.S n) (ls ++ [(uwrap (Z.of_nat (Datatypes.S j)), flow_at dt (Datatypes.S j))])) as (nx & new & E1 & E2);
        [lia|intros; apply HF; lia|exact HT|exact HP|lia|].
      exists nx, ((uwrap (Z.of_nat (Datatypes.S j)), flow_at dt (Datatypes.S j)) :: new). rewrite E1, <- app_assoc. cbn [List.length app]. split; [reflexivity|].
      intros L HL Hn. assert (Hn' : (n < L)%nat). { destruct (Nat.eq_dec n L) as [->|]; [|lia]. apply HL in E. rewrite (HF (Datatypes.S j)) in E by lia. discriminate. }
      specialize (E2 L HL). lia.
    + destruct (IH (Datatypes.S j) s1 s' fuel n ls) as (nx & new & E1 & E2); [lia|intros; apply HF; lia|exact HT|exact HP|lia|].
      exists nx, new. auto.
Qed.

(** The loop ends, and after how many passes. *)
Lemma steps_exist n dt stop v p q T : num64 dt = Fin v -> num64 stop = Fin T -> 0 < p -> 0 < q -> within n v p q -> 0 < T -> Z.of_nat n <= 2 ^ 50 ->
  T * q <= 2 ^ 50 * (p * U) -> T <= 2 ^ 90 * U -> p <= 2 ^ 90 * q ->
  exists k, first_reach n p q T k /\ dge (flow_at dt k) stop = true /\ (forall i, (1 <= i < k)%nat -> dge (flow_at dt i) stop = false) /\
    (Z.of_nat k - 1) * (p * U) < 2 * (T * q) /\ exists c, num64 (flow_at dt k) = Fin c /\ within (n + k) c (Z.of_nat k * p) q /\ T <= c.
Proof.
  intros Ed Es Hp Hq Wv HT Hm H1 H2 H3. pose proof U_pos as PU. assert (PP : 0 < p * U) by nia. set (v' := p * U) in *. set (T' := T * q) in *.
  assert (HT' : 0 < T') by (unfold T'; nia).
  set (m := Z.to_nat (2 * T' / v' + 1)).
  assert (En : Z.of_nat m = 2 * T' / v' + 1). { unfold m. rewrite Z2Nat.id; [reflexivity|]. assert (0 <= 2 * T' / v') by (apply Z.div_pos; lia). lia. }
  pose proof (Z.mul_div_le (2 * T') v' PP) as D1. pose proof (Z.mul_succ_div_gt (2 * T') v' PP) as D2. unfold Z.succ in D2.
  assert (Bn : Z.of_nat (n + m) <= 2 ^ 52).
  { rewrite Nat2Z.inj_add, En. assert (2 * T' / v' <= 2 ^ 51); [|change (2 ^ 52) with (2 * 2 ^ 51); change (2 ^ 51) with (2 * 2 ^ 50) in *; assert (1 <= 2 ^ 50) by (apply Z.leb_le; reflexivity); lia].
    apply Z.div_le_upper_bound; [exact PP|]. change (2 ^ 51) with (2 * 2 ^ 50). lia. }
  assert (Bp : forall i, (i <= m)%nat -> Z.of_nat i * p <= 2 ^ 97 * q).
  { intros i Hi. apply (Z.le_trans _ (Z.of_nat m * p)); [apply Z.mul_le_mono_nonneg_r; lia|]. rewrite En.
    apply (Z.mul_le_mono_pos_r _ _ U PU). rewrite <- Z.mul_assoc. fold v'. 
    apply (Z.le_trans _ (2 * (2 ^ 90 * U * q) + 2 ^ 90 * q * U)).
    - assert (T' <= 2 ^ 90 * U * q) by (apply Z.mul_le_mono_nonneg_r; lia). assert (v' <= 2 ^ 90 * q * U) by (apply Z.mul_le_mono_nonneg_r; lia). lia.
    - change (2 ^ 97) with (128 * 2 ^ 90). assert (0 < 2 ^ 90 * q * U) by (apply Z.mul_pos_pos; [apply Z.mul_pos_pos; [reflexivity|lia]|lia]). lia. }
  assert (FW : forall i, (i <= m)%nat -> exists c, num64 (flow_at dt i) = Fin c /\ within (n + i) c (Z.of_nat i * p) q).
  { intros i Hi. destruct (flow_within n dt v p q Ed Hp Hq Wv i) as (c & Ec & _ & Wc); [lia|apply Bp; exact Hi|]. exists c. auto. }
  assert (HH : forall i c, (i <= m)%nat -> within (n + i) c (Z.of_nat i * p) q -> Z.of_nat i * v' <= 2 * (c * q)).
  { intros i c Hi W. apply within_half in W; [|lia|apply Z.mul_nonneg_nonneg; lia]. unfold v'. lia. }
  destruct (least_or (fun i => dge (flow_at dt i) stop) m) as [A|(k & A & B & C)].
  - exfalso. assert (N1 : (1 <= m)%nat) by (assert (0 <= 2 * T' / v') by (apply Z.div_pos; lia); lia).
    specialize (A m ltac:(lia)). cbv beta in A. destruct (FW m (le_n m)) as (c & Ec & Wc). rewrite (dge_fin _ _ c T Ec Es) in A. apply Z.leb_gt in A.
    apply (HH m) in Wc; [|lia]. rewrite En in Wc. assert (c * q < T') by (apply Z.mul_lt_mono_pos_r; assumption). lia.
  - exists k. destruct (FW k ltac:(lia)) as (c & Ec & Wc). cbv beta in B. rewrite (dge_fin _ _ c T Ec Es) in B. pose proof B as B'. apply Z.leb_le in B'.
    destruct (FW (k - 1)%nat ltac:(lia)) as (c' & Ec' & Wc').
    assert (L : c' < T).
    { destruct (Nat.eq_dec k 1) as [->|]; [cbn in Ec'; apply Fin_inj in Ec'; lia|]. specialize (C (k - 1)%nat ltac:(lia)). cbv beta in C. rewrite (dge_fin _ _ c' T Ec' Es) in C. apply Z.leb_gt in C. exact C. }
    split; [|split; [|split; [|split]]].
    + split; [lia|]. split; [exists c|exists c']; auto.
    + rewrite (dge_fin _ _ c T Ec Es). exact B.
    + exact C.
    + apply (HH (k - 1)%nat) in Wc'; [|lia]. assert (c' * q < T') by (apply Z.mul_lt_mono_pos_r; assumption). rewrite Nat2Z.inj_sub in Wc' by lia. change (Z.of_nat 1) with 1 in Wc'. lia.
    + exists c. auto.
Qed.

Lemma within_self v : within 0 v v (2 ^ 1074).
Proof. change (2 ^ 1074) with U. rewrite within_def. change (down 0) with 1. change (one 0) with 1. change (up 0) with 1. lia. Qed.

Lemma loop_ends {S} dt stop print v T (body : M S unit) s ls : num64 dt = Fin v -> num64 stop = Fin T -> 0 < v -> 0 < T ->
  T <= 2 ^ 50 * v -> T <= 2 ^ 90 * 2 ^ 1074 -> v <= 2 ^ 90 * 2 ^ 1074 ->
  (forall k, exists s', M_Examples.passes k body s = Ret s' tt) ->
  exists k s' t, first_reach 0 v (2 ^ 1074) T k /\ (Z.of_nat k - 1) * v < 2 * T /\ M_Examples.passes k body s = Ret s' tt /\
    (forall fuel, (k <= fuel)%nat -> exists nx new, for_ever fuel dt stop print body (s, TS 0 0 0 ls) = Ret (s', TS (uwrap (Z.of_nat k)) t nx (ls ++ new)) tt) /\
    exists c, num64 t = Fin c /\ T <= c /\ within k c (Z.of_nat k * v) (2 ^ 1074).
Proof.
  intros Ed Es Hv HT H1 H2 H3 HB. pose proof U_pos as PU. change (2 ^ 1074) with U in *.
  destruct (steps_exist 0 dt stop v v U T Ed Es Hv PU (within_self v) HT) as (k & F & A & B & C & c & Ec & Wc & Lc); [discriminate|nia|exact H2|exact H3|].
  destruct (HB k) as (s' & Es'). exists k, s', (flow_at dt k). split; [exact F|]. split; [nia|]. split; [exact Es'|]. split.
  - intros fuel Hf. destruct (loop_counts dt stop print body k 0 s s' fuel 0 ls) as (nx & new & E1 & _); [destruct F; lia|intros; apply B; lia|exact A|exact Es'|exact Hf|].
    exists nx, new. exact E1.
  - exists c. auto.
Qed.

(** A loop that does not end. *)
Lemma loop_stuck {S} dt stop print (body : M S unit) (I : S -> Prop) :
  (forall i, (1 <= i)%nat -> dge (flow_at dt i) stop = false) -> (forall s, I s -> exists s', body s = Ret s' tt /\ I s') ->
  forall fuel j s n nx ls, I s -> for_ever fuel dt stop print body (s, TS n (flow_at dt j) nx ls) = Undef.
Proof.
  intros HF HI. induction fuel as [|fuel IH]; intros j s n nx ls Hs; [reflexivity|]. cbn [for_ever]. unfold bind, on_fst.
  destruct (HI s Hs) as (s' & -> & Hs'). cbn [step flowtime time_next_print lines]. rewrite <- flow_S, HF by lia. destruct (dge _ nx); apply IH; exact Hs'.
Qed.

(** Adding 2^-55 does not get beyond one half. *)
Lemma small_step : num64 (lit 1 (2 ^ 55)) = Fin (2 ^ 1019).
Proof. reflexivity. Qed.

Lemma stuck_flow k : exists a, num64 (flow_at (lit 1 (2 ^ 55)) k) = Fin a /\ 0 <= a <= 2 ^ 1073.
Proof.
  induction k as [|k (a & Ea & Ra)]; [exists 0; split; [reflexivity|split; [lia|discriminate]]|]. rewrite flow_S. set (dt := lit 1 (2 ^ 55)) in *.
  assert (GM : Z.abs (a + 2 ^ 1019) <= double_max).
  { pose proof dmax_U as D. assert (2 ^ 1073 + 2 ^ 1019 <= 2 ^ 100 * U) by (apply Z.leb_le; reflexivity). assert (0 < 2 ^ 1019) by reflexivity. rewrite Z.abs_eq by lia. lia. }
  destruct (dadd_nearest (flow_at dt k) dt a (2 ^ 1019) Ea small_step GM) as (c & Ec & Nc). exists c. split; [exact Ec|].
  assert (N0 : num64 0 = Fin 0) by reflexivity. assert (NH : num64 (lit 1 2) = Fin (2 ^ 1073)) by reflexivity.
  pose proof (Nc _ _ N0) as C0. pose proof (Nc _ _ NH) as CH. destruct (finite_parts _ _ Ec) as (m & j & Em & Hj & Hm). clear Nc N0 NH Ec GM Ea.
  assert (P : 0 < 2 ^ 1019) by reflexivity. assert (0 <= c) by lia. split; [assumption|]. rewrite Z.abs_eq in Em by assumption.
  destruct (Z.le_gt_cases c (2 ^ 1073)) as [L|G]; [exact L|exfalso].
  assert (J : 1021 <= j).
  { destruct (Z.le_gt_cases 1021 j) as [|J]; [assumption|exfalso]. assert (2 ^ j <= 2 ^ 1020) by (apply Z.pow_le_mono_r; lia).
    assert (m * 2 ^ j <= 2 ^ 53 * 2 ^ 1020) by (apply Z.mul_le_mono_nonneg; [lia|lia|apply Z.pow_nonneg; lia|assumption]).
    change (2 ^ 53 * 2 ^ 1020) with (2 ^ 1073) in H1. lia. }
  assert (E : 2 ^ j = 2 ^ (j - 1021) * 2 ^ 1021) by (rewrite <- Z.pow_add_r by lia; f_equal; lia).
  set (w := m * 2 ^ (j - 1021)). assert (Ew : c = w * 2 ^ 1021) by (unfold w; rewrite Em, E; ring). clearbody w.
  change (2 ^ 1073) with (2 ^ 52 * 2 ^ 1021) in *. change (2 ^ 1021) with (4 * 2 ^ 1019) in *.
  clear Em E Hm Hj J m j. set (e := 2 ^ 1019) in *. clearbody e. subst c. set (h := 2 ^ 52) in *. clearbody h.
  assert (h + 1 <= w) by nia. nia.
Qed.

Lemma stuck_never k : dge (flow_at (lit 1 (2 ^ 55)) k) (lit 1 1) = false.
Proof.
  destruct (stuck_flow k) as (a & Ea & Ra). assert (E1 : num64 (lit 1 1) = Fin (2 * 2 ^ 1073)) by reflexivity. rewrite (dge_fin _ _ _ _ Ea E1).
  apply Z.leb_gt. assert (0 < 2 ^ 1073) by reflexivity. lia.
Qed.

(** ** The constants of the examples *)

Lemma fneg_twice y : 0 <= y < 2 ^ 63 -> fneg Double (fneg Double y) = y.
Proof.
  intros H. unfold fneg. change (fbits Double - 1) with 63. cbv zeta. destruct (Z.ltb_spec y (2 ^ 63)); [|lia].
  destruct (Z.ltb_spec (y + 2 ^ 63) (2 ^ 63)); lia.
Qed.

Lemma lit_within a b : 0 < a -> 0 < b -> a <= 2 ^ 100 * b -> b <= 2 ^ 100 * a ->
  exists w, num64 (lit a b) = Fin w /\ 0 <= lit a b < 2 ^ 63 /\ within 1 w a b.
Proof.
  intros Ha Hb H1 H2. pose proof U_pos as PU. pose proof U_big as BU. unfold lit. destruct (round_rel a b Ha Hb) as (w & Ew & W0 & Rw & R1 & R2).
  - apply (Z.le_trans _ (2 ^ 100 * b)); [exact H1|]. apply Z.mul_le_mono_nonneg_r; [lia|]. apply (Z.le_trans _ (2 ^ 1023)); [apply Z.leb_le; reflexivity|apply consts_mul].
  - apply (Z.le_trans _ (2 ^ 52 * (2 ^ 100 * a))); [apply Z.mul_le_mono_nonneg_l; [apply Z.leb_le; reflexivity|exact H2]|].
    rewrite Z.mul_assoc, (Z.mul_comm a). apply Z.mul_le_mono_nonneg_r; [lia|]. apply (Z.le_trans _ (2 ^ 200)); [apply Z.leb_le; reflexivity|exact BU].
  - exists w. split; [exact Ew|split; [exact Rw|]]. unfold within. change (Z.of_nat 1) with 1. rewrite !Z.pow_1_r, Z.mul_1_r. split; assumption.
Qed.

(** The number of steps, when the roundings do not matter. *)
Lemma counts_exactly n m dt stop b T p q r s K : num64 dt = Fin b -> num64 stop = Fin T -> 0 < p -> 0 < q -> 0 < r -> 0 < s ->
  within n b p q -> within m T r s -> Z.of_nat (n + K) <= 2 ^ 52 -> Z.of_nat m <= 2 ^ 52 -> (1 <= K)%nat -> Z.of_nat K * p <= 2 ^ 97 * q ->
  2 ^ 53 * 2 ^ 53 * ((Z.of_nat K - 1) * p * s) < (2 ^ 53 - (Z.of_nat n + Z.of_nat K)) * (2 ^ 53 - Z.of_nat m) * (r * q) ->
  2 ^ 53 * 2 ^ 53 * (r * q) < (2 ^ 53 - Z.of_nat m) * (2 ^ 53 - (Z.of_nat n + Z.of_nat K)) * (Z.of_nat K * p * s) ->
  dge (flow_at dt K) stop = true /\ forall i, (1 <= i < K)%nat -> dge (flow_at dt i) stop = false.
Proof.
  intros Eb ET Hp Hq Hr Hs Wb WT Hn Hm HK Hmax L G. assert (HH : 2 ^ 53 = 2 * 2 ^ 52) by reflexivity. assert (H52 : 0 < 2 ^ 52) by reflexivity. split.
  - destruct (flow_within n dt b p q Eb Hp Hq Wb K Hn Hmax) as (c & Ec & _ & Wc). rewrite (dge_fin _ _ c T Ec ET). apply Z.leb_le. apply Z.lt_le_incl.
    apply (within_lt m (n + K) T c r s (Z.of_nat K * p) q); try assumption; [apply Z.mul_pos_pos; lia|lia|lia|]. rewrite Nat2Z.inj_add. exact G.
  - intros i Hi. destruct (flow_within n dt b p q Eb Hp Hq Wb i) as (c & Ec & _ & Wc); [lia|apply (Z.le_trans _ (Z.of_nat K * p)); [apply Z.mul_le_mono_nonneg_r; lia|exact Hmax]|].
    rewrite (dge_fin _ _ c T Ec ET). apply Z.leb_gt.
    apply (within_lt (n + i) m c T (Z.of_nat i * p) q r s); try assumption; [apply Z.mul_pos_pos; lia|lia|lia|].
    apply (Z.le_lt_trans _ (2 ^ 53 * 2 ^ 53 * ((Z.of_nat K - 1) * p * s))).
    + apply Z.mul_le_mono_nonneg_l; [discriminate|]. apply Z.mul_le_mono_nonneg_r; [lia|]. apply Z.mul_le_mono_nonneg_r; lia.
    + apply (Z.lt_le_trans _ _ _ L). apply Z.mul_le_mono_nonneg_r; [nia|]. apply Z.mul_le_mono_nonneg_r; lia.
Qed.

Lemma whole_within c : 0 < c < 2 ^ 53 -> exists w, num64 (of_whole c) = Fin w /\ 0 <= of_whole c < 2 ^ 63 /\ within 0 w c 1.
Proof.
  intros H. destruct (of_whole_exact c H) as [E R]. exists (c * U). split; [exact E|split; [exact R|]].
  rewrite within_def. change (down 0) with 1. change (one 0) with 1. change (up 0) with 1. lia.
Qed.

Lemma pi_within : exists w, num64 pi = Fin w /\ 0 <= pi < 2 ^ 63 /\ within 1 w 31415926 10000000.
Proof. unfold pi. apply lit_within; apply Z.leb_le || apply Z.ltb_lt; reflexivity. Qed.

Lemma two_pi_within : exists w, num64 (dsub pi (fneg Double pi)) = Fin w /\ 0 <= dsub pi (fneg Double pi) < 2 ^ 63 /\ within 2 w 62831852 10000000.
Proof.
  destruct pi_within as (w & E & R & W). unfold dsub. rewrite (fneg_twice pi R). pose proof U_pos as PU.
  pose proof (within_half 1 w 31415926 10000000 ltac:(apply Z.leb_le; reflexivity) ltac:(lia) W) as [_ H].
  apply (add_within 1 pi pi w w 31415926 31415926 10000000 R E E); try assumption; try lia.
Qed.

(** [0.1 / (A / h / h)] *)
Lemma step_within A P Q n h b : 0 < A <= 4 -> 0 < P -> 0 < Q -> Q <= 2 ^ 47 * P -> P <= 2 ^ 47 * Q -> Z.of_nat n <= 100 -> 0 <= h < 2 ^ 63 -> num64 h = Fin b -> within n b P Q ->
  (exists w, num64 (ddiv (ddiv (of_whole A) h) h) = Fin w /\ 0 <= ddiv (ddiv (of_whole A) h) h < 2 ^ 63 /\ within (4 * n + 2) w (A * (Q * Q)) (P * P)) /\
  exists w, num64 (ddiv (lit 1 10) (ddiv (ddiv (of_whole A) h) h)) = Fin w /\ 0 <= ddiv (lit 1 10) (ddiv (ddiv (of_whole A) h) h) < 2 ^ 63 /\
    within (8 * n + 6) w (P * P) (10 * (A * (Q * Q))).
Proof.
  intros HA HP HQ M1 M2 Hn Rh Eh Wh. destruct (whole_within A) as (wa & Ea & Ra & Wa); [split; [lia|apply (Z.le_lt_trans _ 4); [lia|reflexivity]]|].
  assert (B52 : 1000 <= 2 ^ 52) by (apply Z.leb_le; reflexivity).
  assert (B100 : 2 ^ 100 = 2 ^ 47 * 2 ^ 47 * 64) by reflexivity. assert (B47 : 1000 <= 2 ^ 47) by (apply Z.leb_le; reflexivity).
  assert (S1 : Q * Q <= 2 ^ 47 * 2 ^ 47 * (P * P)). { replace (2 ^ 47 * 2 ^ 47 * (P * P)) with ((2 ^ 47 * P) * (2 ^ 47 * P)) by ring. apply Z.mul_le_mono_nonneg; lia. }
  assert (S2 : P * P <= 2 ^ 47 * 2 ^ 47 * (Q * Q)). { replace (2 ^ 47 * 2 ^ 47 * (Q * Q)) with ((2 ^ 47 * Q) * (2 ^ 47 * Q)) by ring. apply Z.mul_le_mono_nonneg; lia. }
  assert (PQ : 0 < Q * Q) by nia. assert (PP : 0 < P * P) by nia.
  destruct (quot_within 0 n (of_whole A) h wa b A 1 P Q Ra Rh Ea Eh ltac:(lia) ltac:(lia) HP HQ Wa Wh ltac:(lia) ltac:(lia)) as (w1 & E1 & R1 & W1).
  { rewrite B100. clear - HA HP HQ M1 B47. set (c := 2 ^ 47) in *. clearbody c. assert (K1 : A * Q <= 4 * (c * P)) by (apply Z.mul_le_mono_nonneg; lia). assert (K2 : 1 * (c * P) <= c * (c * P)) by (apply Z.mul_le_mono_nonneg_r; [apply Z.mul_nonneg_nonneg; lia|lia]). lia. }
  { rewrite B100. clear - HA HP HQ M2 B47. set (c := 2 ^ 47) in *. clearbody c. assert (K1 : 1 * Q <= A * Q) by (apply Z.mul_le_mono_nonneg_r; lia). assert (K2 : c * Q <= c * (A * Q)) by (apply Z.mul_le_mono_nonneg_l; lia). assert (K3 : 1 * (c * (A * Q)) <= c * (c * (A * Q))) by (apply Z.mul_le_mono_nonneg_r; [apply Z.mul_nonneg_nonneg; lia|lia]). lia. }
  rewrite Z.mul_1_l in W1.
  destruct (quot_within (0 + (n + n) + 1) n _ h w1 b (A * Q) P P Q R1 Rh E1 Eh ltac:(nia) HP HP HQ W1 Wh ltac:(lia) ltac:(lia)) as (w2 & E2 & R2 & W2).
  { rewrite B100, <- (Z.mul_assoc A Q Q). clear - HA S1 PQ PP. revert PQ PP S1. generalize (2 ^ 47 * 2 ^ 47), (Q * Q), (P * P). intros c x y X0 Y0 S1. assert (A * x <= 4 * x) by (apply Z.mul_le_mono_nonneg_r; lia). assert (0 <= c * y) by lia. lia. }
  { rewrite B100, <- (Z.mul_assoc A Q Q). clear - HA S2 PQ PP. revert PQ PP S2. generalize (2 ^ 47 * 2 ^ 47), (Q * Q), (P * P). intros c x y X0 Y0 S2. assert (0 <= c * x) by lia. assert (1 * (c * x) <= A * (c * x)) by (apply Z.mul_le_mono_nonneg_r; lia). lia. }
  replace (0 + (n + n) + 1 + (n + n) + 1)%nat with (4 * n + 2)%nat in W2 by lia. rewrite <- (Z.mul_assoc A Q Q) in W2.
  split; [exists w2; auto|].
  destruct (lit_within 1 10) as (wl & El & Rl & Wl); try (apply Z.leb_le || apply Z.ltb_lt; reflexivity).
  destruct (quot_within 1 (4 * n + 2) (lit 1 10) _ wl w2 1 10 (A * (Q * Q)) (P * P) Rl R2 El E2 ltac:(lia) ltac:(lia) ltac:(nia) PP Wl W2 ltac:(lia) ltac:(lia)) as (w3 & E3 & R3 & W3).
  { rewrite B100, Z.mul_1_l. clear - HA S2 PQ PP. revert PQ PP S2. generalize (2 ^ 47 * 2 ^ 47), (Q * Q), (P * P). intros c x y X0 Y0 S2. assert (0 <= c * x) by lia. assert (1 * (c * x) <= A * (c * x)) by (apply Z.mul_le_mono_nonneg_r; lia). lia. }
  { rewrite B100, Z.mul_1_l. clear - HA S1 PQ PP. revert PQ PP S1. generalize (2 ^ 47 * 2 ^ 47), (Q * Q), (P * P). intros c x y X0 Y0 S1. assert (A * x <= 4 * x) by (apply Z.mul_le_mono_nonneg_r; lia). assert (0 <= c * y) by lia. lia. }
  exists w3. split; [exact E3|split; [exact R3|]]. rewrite Z.mul_1_l in W3. replace (8 * n + 6)%nat with (1 + (4 * n + 2 + (4 * n + 2)) + 1)%nat by lia. exact W3.
Qed.
