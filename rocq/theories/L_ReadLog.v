(** Logs of written files, as read_plt needs them. *)

From Coq Require Import ZArith Ascii String List Bool Lia.
From Verif Require Import Base M_Bytes M_TecZone M_TecFile Spec_Loop Spec_Tec Spec_Plt Spec_Read
  L_Base L_Loop L_TecZone L_TecMin L_Plt L_Text L_TecWrite L_TecFile L_TecText L_TecWhole L_TecProp.
Import ListNotations.
Open Scope list_scope.
Open Scope Z_scope.

Lemma filter_le {A} (p : A -> bool) l : (length (filter p l) <= length l)%nat.
Proof. induction l as [|x l IH]; cbn [filter length]; [lia|]. destruct (p x); cbn [length]; lia. Qed.

Lemma samples_int max s b e : dir_fits max s b e -> in_int (Z.of_nat (length (sampled max s b e))).
Proof.
  intros (H1 & H2 & H3 & H4 & H5). unfold sampled, in_int.
  pose proof (filter_le (fun i => (i - b) mod s =? 0) (zrange b (max - e))) as H. rewrite length_zrange in H. lia.
Qed.

Lemma made_width d : made d -> forall mem, d_mem d = Some mem -> 1 <= d_type d <= 5 /\ d_size d = width (d_type d).
Proof.
  intros [->|(t & m & E)] mem Hm; [discriminate|]. destruct t; cbn in E; inversion E; subst; cbn; split; try reflexivity; unfold TEC_FLOAT, TEC_DOUBLE, TEC_LONGINT, TEC_SHORTINT, TEC_BYTE; lia.
Qed.

Lemma Forall2_nth {A B} (R : A -> B -> Prop) l l' i x :
  Forall2 R l l' -> nth_error l i = Some x -> exists y, nth_error l' i = Some y /\ R x y.
Proof.
  intros H. revert i. induction H as [|a b l l' Hab H IH]; intros [|i] E; try discriminate.
  - injection E as <-. eexists. split; [reflexivity|assumption].
  - apply IH. exact E.
Qed.
Lemma Forall2_nth_r {A B} (R : A -> B -> Prop) l l' i y :
  Forall2 R l l' -> nth_error l' i = Some y -> exists x, nth_error l i = Some x /\ R x y.
Proof.
  intros H. revert i. induction H as [|a b l l' Hab H IH]; intros [|i] E; try discriminate.
  - injection E as <-. eexists. split; [reflexivity|assumption].
  - apply IH. exact E.
Qed.
Lemma Forall2_len {A B} (R : A -> B -> Prop) l l' : Forall2 R l l' -> length l = length l'.
Proof. induction 1; cbn; congruence. Qed.

Lemma written_log e f s g u :
  file_wf f -> plt_size f < 2 ^ 63 -> write_plt e f = Ret (s, g) u ->
  exists b, disk s = Some b /\ fl_file g = f /\ log_wf g /\
    forall i z vv d mem, nth_error (f_zones f) i = Some z -> nth_error (z_data z) vv = Some d -> d_mem d = Some mem ->
      zone_fits z /\ org_count z * width (d_type d) <= Z.of_nat (length mem) /\
      exists zl dl, nth_error (fl_zones g) i = Some zl /\ nth_error (zl_data zl) vv = Some dl /\
        list3 (r_max (zl_real zl)) = samples_of z /\ dl_type dl = d_type d /\
        lies_at b (dl_pt dl) (block_of z (width (d_type d)) mem).
Proof.
  intros Hw Hs E. destruct (plt_log e f s g u Hw Hs E) as (b & p & Hb & (_ & _ & _ & _ & Hsh) & _ & Hlz & _ & _ & _ & _ & Hf & _).
  pose proof (write_spec e f Hw Hs) as H. rewrite E in H. destruct H as (Hr & _).
  destruct (not_refused_good f Hw Hr) as (_ & _ & Hg). rewrite Forall_forall in Hg.
  destruct Hw as (_ & _ & _ & Hw). rewrite Forall_forall in Hw.
  exists b. split; [assumption|]. split; [assumption|]. split.
  - unfold log_wf. apply Forall_forall. intros zl Hzl. apply In_nth_error in Hzl. destruct Hzl as [i Hi].
    destruct (Forall2_nth_r _ _ _ _ _ Hlz Hi) as (pz & Hpz & Hmax & Hdat).
    destruct (Forall2_nth_r _ _ _ _ _ Hsh Hpz) as (z & Hz & Hhead & Hvars).
    apply nth_error_In in Hz. pose proof (Hg z Hz) as (Hfit & _ & _ & _ & Hlen & _).
    destruct (Hw z Hz) as (_ & _ & _ & _ & _ & Hd). rewrite Forall_forall in Hd.
    rewrite Hf. split; [|split].
    + rewrite <- Hlen. rewrite <- (Forall2_len _ _ _ Hdat). symmetry. exact (Forall2_len _ _ _ Hvars).
    + apply Forall_forall. intros dl Hdl. apply In_nth_error in Hdl. destruct Hdl as [j Hj].
      destruct (Forall2_nth_r _ _ _ _ _ Hdat Hj) as (pv & Hpv & T1 & T2 & _).
      destruct (Forall2_nth_r _ _ _ _ _ Hvars Hpv) as (d & Hdj & mem & Hmem & T3 & _).
      apply nth_error_In in Hdj. destruct (Hd d Hdj) as [Hmade _].
      destruct (made_width d Hmade mem Hmem) as [W1 W2]. rewrite T1, T2, T3. auto.
    + rewrite Hmax, Hhead. cbn [h_size]. destruct Hfit as ((D0 & D1 & D2) & _). unfold samples_of.
      apply Forall_cons; [now apply samples_int|]. apply Forall_cons; [now apply samples_int|].
      apply Forall_cons; [now apply samples_int|]. apply Forall_nil.
  - intros i z vv d mem Hz Hd Hm.
    pose proof (nth_error_In _ _ Hz) as Hin. pose proof (Hg z Hin) as (Hfit & _).
    destruct (Hw z Hin) as (_ & _ & _ & _ & _ & Hdw). rewrite Forall_forall in Hdw.
    destruct (Hdw d (nth_error_In _ _ Hd)) as [Hmade Hlen]. destruct (made_width d Hmade mem Hm) as [W1 W2].
    split; [assumption|]. split; [rewrite <- W2; now apply Hlen|].
    destruct (Forall2_nth _ _ _ _ _ Hsh Hz) as (pz & Hpz & Hhead & Hvars).
    destruct (Forall2_nth _ _ _ _ _ Hlz Hpz) as (zl & Hzl & Hmax & Hdat).
    destruct (Forall2_nth _ _ _ _ _ Hvars Hd) as (pv & Hpv & mem' & Hm' & T3 & T4 & _).
    destruct (Forall2_nth _ _ _ _ _ Hdat Hpv) as (dl & Hdl & T1 & _ & _ & _ & T5).
    rewrite Hm in Hm'. injection Hm' as <-.
    exists zl, dl. split; [assumption|]. split; [assumption|]. split; [now rewrite Hmax, Hhead|].
    split; [congruence|]. now rewrite <- T4.
Qed.
