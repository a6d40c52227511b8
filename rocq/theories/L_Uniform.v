(** Lemmas for P_Uniform.v *)

From Coq Require Import ZArith List Bool Lia.
From Verif Require Import Base M_Bytes M_Scan M_Flags M_Loop M_Reduce M_FSum M_FMul Spec_Tec Spec Spec_Loop Spec_FSum Spec_FMul.
From Verif Require Import L_Base L_Loop L_Text L_TecMin L_ScanF L_Near L_Print L_Nearest L_Reduce L_FSum L_FMul.
From Verif Require Import M_Heap M_World M_Client M_TimeLoop M_HeatD Spec_Client Spec_TimeLoop L_TimeLoop L_HeatRun L_HeatD.
Import ListNotations.
Open Scope Z_scope.

(** Twice a number of moderate size is a number. *)
Lemma twice_exists x y : num64 x = Fin y -> Z.abs y <= 2 ^ 900 * U -> exists z, num64 z = Fin (2 * y).
Proof.
  intros E L. destruct (Z.eq_dec y 0) as [->|N]; [exists 0; reflexivity|]. destruct (finite_parts x y E) as (m & j & Ey & Hj & Hm).
  assert (M0 : 0 < m). { destruct (Z.eq_dec m 0) as [->|]; [rewrite Z.mul_0_l in Ey; lia|lia]. }
  assert (J : j <= 2000).
  { destruct (Z.le_gt_cases j 2000) as [X|X]; [exact X|]. exfalso. assert (P : 2 ^ 2001 <= 2 ^ j) by (apply Z.pow_le_mono_r; lia). assert (Q : 2 ^ 900 * U < 2 ^ 2001) by reflexivity.
    assert (2 ^ j <= m * 2 ^ j) by (pose proof (Z.pow_nonneg 2 j ltac:(lia)); clear - M0 H; nia). clear - P Q H L Ey. lia. }
  destruct (representable (Z.to_nat (j + 1)) m) as (z & _ & Ez); [lia|lia|]. rewrite Z2Nat.id, Z.pow_add_r, Z.pow_1_r in Ez by lia.
  replace (m * (2 ^ j * 2)) with (2 * Z.abs y) in Ez by (rewrite Ey; ring). destruct (Z.abs_spec y) as [[_ A]|[_ A]]; rewrite A in Ez.
  - exists z. exact Ez.
  - destruct (finite_neg z _ Ez) as (z' & Ez'). exists z'. rewrite Ez'. f_equal. ring.
Qed.

Definition is_num (y v : Z) : Prop := num64 v = Fin y /\ 0 <= v < 2 ^ 64.

Lemma uniform_step A dt al de y a b c : is_num al A -> is_num de dt -> Z.abs y <= 2 ^ 900 * U -> is_num y a -> is_num y b -> is_num y c ->
  is_num y (advD dt b (lapD A a b c)).
Proof.
  intros [EA RA] [Ed Rd] L [Ea Ra] [Eb Rb] [Ec Rc]. unfold advD, lapD, dsub. pose proof U_pos as PU.
  assert (PD : 2 ^ 901 * U <= double_max) by (apply Z.leb_le; reflexivity).
  assert (PL : 2 * (2 ^ 900 * U) = 2 ^ 901 * U) by reflexivity. set (X := 2 ^ 900 * U) in *. rewrite <- PL in PD. clear PL.
  destruct (of_whole_exact 2) as [E2 R2]; [split; [lia|reflexivity]|]. assert (R2' : 0 <= of_whole 2 < 2 ^ 64) by (split; [apply R2|apply (Z.lt_trans _ (2 ^ 63)); [apply R2|reflexivity]]).
  assert (H2 : Z.abs (2 * U * y) <= double_max * U).
  { replace (2 * U * y) with (2 * y * U) by ring. rewrite Z.abs_mul, (Z.abs_eq U) by lia. apply Z.mul_le_mono_nonneg_r; lia. }
  destruct (dmul_near _ b _ y R2' Rb E2 Eb H2) as (t & Et & Rt & _).
  destruct (dmul_nearest _ b _ y R2' Rb E2 Eb H2) as (t' & Et' & Nt). rewrite Et in Et'. apply Fin_inj in Et'. subst t'.
  destruct (twice_exists b y Eb L) as (z & Ez). specialize (Nt z _ Ez). replace (2 * y * U - 2 * U * y) with 0 in Nt by ring. change (Z.abs 0) with 0 in Nt.
  assert (T : t = 2 * y). { apply (Z.mul_reg_r _ _ U); [lia|]. lia. } subst t. clear Nt.
  pose proof (fneg_num _ _ Rt Et) as En. set (g := fneg Double _) in *. clearbody g.
  destruct (dadd_nearest a g y _ Ea En) as (s1 & Es1 & N1); [lia|]. destruct (finite_neg b y Eb) as (z' & Ez'). specialize (N1 z' _ Ez'). assert (S1 : s1 = - y) by lia. subst s1.
  destruct (dadd_near _ c _ y Es1 Ec) as (s & Es & Rs & Ns & _); [lia|]. assert (S : s = 0). { replace (- y + y) with 0 in Ns by ring. rewrite Z.sub_0_r in Ns. change (Z.abs 0) with 0 in Ns. assert (0 < 2 ^ 53) by reflexivity. clear - Ns H. lia. } subst s.
  destruct (dmul_near A _ al 0 RA Rs EA Es) as (p' & _ & Rp & _); [rewrite Z.mul_0_r; change (Z.abs 0) with 0; clear - PD PU L; nia|].
  destruct (dmul_nearest A _ al 0 RA Rs EA Es) as (p & Ep & Np); [rewrite Z.mul_0_r; change (Z.abs 0) with 0; clear - PD PU L; nia|].
  specialize (Np 0 0 eq_refl). assert (P : p = 0). { rewrite Z.mul_0_r in Np. change (Z.abs (0 * U - 0)) with 0 in Np. clear - Np PU. nia. } subst p.
  destruct (dmul_near dt _ de 0 Rd Rp Ed Ep) as (q' & _ & Rq & _); [rewrite Z.mul_0_r; change (Z.abs 0) with 0; clear - PD PU L; nia|].
  destruct (dmul_nearest dt _ de 0 Rd Rp Ed Ep) as (q & Eq & Nq); [rewrite Z.mul_0_r; change (Z.abs 0) with 0; clear - PD PU L; nia|].
  specialize (Nq 0 0 eq_refl). assert (Q : q = 0). { rewrite Z.mul_0_r in Nq. change (Z.abs (0 * U - 0)) with 0 in Nq. clear - Nq PU. nia. } subst q.
  destruct (dadd_near b _ y 0 Eb Eq) as (n' & _ & Rn & _); [lia|]. destruct (dadd_nearest b _ y 0 Eb Eq) as (n & Enn & Nn); [lia|].
  specialize (Nn b y Eb). split; [rewrite Enn; f_equal; lia|exact Rn].
Qed.

Lemma uniform_iter N A dt al de y k f : 2 <= N -> is_num al A -> is_num de dt -> Z.abs y <= 2 ^ 900 * U -> (forall i, 0 <= i < N -> is_num y (f i)) ->
  forall i, 0 <= i < N -> is_num y (Nat.iter k (heat_step N (lapD A) (advD dt)) f i).
Proof.
  intros HN HA Hd L H. induction k as [|k IH]; [exact H|]. intros i Hi. change (Nat.iter (S k) (heat_step N (lapD A) (advD dt)) f) with (heat_step N (lapD A) (advD dt) (Nat.iter k (heat_step N (lapD A) (advD dt)) f)).
  set (g := Nat.iter k _ f) in *. clearbody g.
  assert (G' : forall j, -1 <= j <= N -> is_num y (ext N g j)).
  { intros l Hl. unfold ext. destruct (Z.ltb_spec l 0); [apply IH; lia|]. destruct (Z.leb_spec N l); apply IH; lia. }
  unfold heat_step. apply (uniform_step A dt al de); try assumption; [apply G'; lia|apply IH; exact Hi|apply G'; lia].
Qed.
