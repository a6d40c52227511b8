(** write_plt: what a run leaves on disk and in the log. *)

From Coq Require Import ZArith Ascii String List Bool Lia.
From Verif Require Import Base M_Bytes M_TecZone M_TecFile Spec_Loop Spec_Tec Spec_Plt
  L_Base L_TecZone L_TecMin L_Plt L_Text.
Import ListNotations.
Open Scope list_scope.
Open Scope Z_scope.

Ltac conjs := repeat match goal with |- _ /\ _ => split end.

(** ** Outcomes *)

Definition wp {S A} (U : Prop) (E : S -> exn -> Prop) (m : M S A) (Q : S -> A -> Prop) (s : S) : Prop :=
  match m s with Ret s' a => Q s' a | Thr s' e => E s' e | Undef => U end.

Lemma wp_bind {S A B} U E (m : M S A) (k : A -> M S B) Q s :
  wp U E m (fun s' a => wp U E (k a) Q s') s -> wp U E (bind m k) Q s.
Proof. unfold wp, bind. destruct (m s); auto. Qed.
Lemma wp_ret {S A} U E (a : A) (Q : S -> A -> Prop) s : Q s a -> wp U E (ret a) Q s.
Proof. exact (fun H => H). Qed.
Lemma wp_conseq {S A} U E (m : M S A) (Q Q' : S -> A -> Prop) s :
  wp U E m Q s -> (forall s' a, Q s' a -> Q' s' a) -> wp U E m Q' s.
Proof. unfold wp. destruct (m s); auto. Qed.
Lemma wp_conseq3 {S A} (U U' : Prop) (E E' : S -> exn -> Prop) (m : M S A) (Q Q' : S -> A -> Prop) s :
  wp U E m Q s -> (U -> U') -> (forall s' e, E s' e -> E' s' e) -> (forall s' a, Q s' a -> Q' s' a) -> wp U' E' m Q' s.
Proof. unfold wp. destruct (m s); auto. Qed.
Lemma wp_lift_ok {S A} U E (r : res A) a (Q : S -> A -> Prop) s : r = Ok a -> Q s a -> wp U E (lift r) Q s.
Proof. intros -> H. exact H. Qed.
Lemma wp_upd {S T} U E (f : T -> T) (Q : S * T -> unit -> Prop) s t : Q (s, f t) tt -> wp U E (upd_snd f) Q (s, t).
Proof. exact (fun H => H). Qed.
Lemma wp_put {L} U E b (Q : fs * L -> unit -> Prop) d o v (g : L) :
  Q (mkFs (Some (d ++ b)) o v, g) tt -> wp U E (put b) Q (mkFs (Some d) o v, g).
Proof. exact (fun H => H). Qed.
Lemma wp_tell {L} U E (Q : fs * L -> Z -> Prop) d o v (g : L) :
  Q (mkFs (Some d) o v, g) (Z.of_nat (length d)) -> wp U E tell Q (mkFs (Some d) o v, g).
Proof. exact (fun H => H). Qed.
Lemma wp_live {L} U E n (Q : fs * L -> unit -> Prop) d o v (g : L) :
  Q (mkFs d o (v + n), g) tt -> wp U E (add_live n) Q (mkFs d o v, g).
Proof. exact (fun H => H). Qed.

(** ** Lists *)

Lemma upd_nth_app {A} (f : A -> A) pre x post :
  upd_nth (length pre) f (pre ++ x :: post) = Some (pre ++ f x :: post).
Proof. induction pre as [|a pre IH]; cbn; [reflexivity|]. rewrite IH. reflexivity. Qed.
Lemma nth_error_mid {A} (pre : list A) x post : nth_error (pre ++ x :: post) (length pre) = Some x.
Proof. induction pre; cbn; auto. Qed.
Lemma add_last_app l x s : add_last (l ++ [x]) s = Some (l ++ [(x ++ s)%string]).
Proof.
  induction l as [|a l IH]; cbn; [reflexivity|]. rewrite IH.
  destruct l; cbn; reflexivity.
Qed.

(** ** Data of a zone that was accepted *)

Definition mem_of (d : tdata) : bytes := match d_mem d with Some m => m | None => [] end.
Definition blk (z : zone) (d : tdata) : bytes := block_of z (width (d_type d)) (mem_of d).
Definition data_ok (z : zone) (d : tdata) : Prop :=
  1 <= d_type d <= 5 /\ d_size d = width (d_type d) /\ exists mem, data_fits z d mem.
Definition count (z : zone) : Z := product (samples_of z).

Lemma made_some d mem : made d -> d_mem d = Some mem -> 1 <= d_type d <= 5 /\ d_size d = width (d_type d).
Proof.
  intros [->|(t & m & H)] Hm; [discriminate|].
  destruct t; cbn in H; try discriminate; injection H as <-; cbn; unfold TEC_FLOAT, TEC_DOUBLE, TEC_LONGINT, TEC_SHORTINT, TEC_BYTE; lia.
Qed.
Lemma width_range t : 1 <= t <= 5 -> 1 <= width t <= 8.
Proof.
  intros H. assert (Hc : t = 1 \/ t = 2 \/ t = 3 \/ t = 4 \/ t = 5) by lia.
  destruct Hc as [->|[->|[->|[->| ->]]]]; cbn; lia.
Qed.

Lemma unset_mem d : made d -> data_unset d = match d_mem d with None => true | Some _ => false end.
Proof.
  intros H. unfold data_unset. destruct (d_mem d) eqn:E; [|reflexivity].
  destruct (made_some d _ H E) as [H1 H2]. pose proof (width_range _ H1).
  destruct (d_type d =? 0) eqn:F; zcmp; [lia|]. destruct (d_size d =? 0) eqn:G; zcmp; [lia|reflexivity].
Qed.

(** An accepted zone. *)
Definition zone_good (vars : list string) (z : zone) : Prop :=
  zone_fits z /\ in_int (z_strand z) /\ 0 <= z_time z < 2 ^ 64 /\
  z_data z <> [] /\ length (z_data z) = length vars /\ Forall (data_ok z) (z_data z).

Lemma some_dir_dec z : some_dir dir_bad z \/ ~ some_dir dir_bad z.
Proof. unfold some_dir, dir_bad. lia. Qed.

Lemma wf_good f z : zone_wf z -> ~ refused_zone f z -> zone_good (f_vars f) z.
Proof.
  intros (Hi & Hf & Hc & Hs & Ht & Hd) Hr. unfold refused_zone in Hr.
  assert (Hz : zone_fits z).
  { split; [|assumption]. assert (Hb : ~ some_dir dir_bad z) by tauto.
    unfold some_dir, dir_bad, all_dirs, dir_ints, dir_fits in *. lia. }
  unfold zone_good. split; [assumption|]. split; [assumption|]. split; [assumption|]. split; [|split].
  - intros E. tauto.
  - destruct (Nat.eq_dec (length (z_data z)) (length (f_vars f))); [assumption|tauto].
  - apply Forall_forall. intros d Hin. rewrite Forall_forall in Hd. destruct (Hd d Hin) as [Hm Hl].
    destruct (d_mem d) as [mem|] eqn:E.
    + destruct (made_some d mem Hm E) as [H1 H2]. split; [assumption|]. split; [assumption|]. exists mem.
      specialize (Hl mem eq_refl). pose proof (width_range _ H1). unfold data_fits.
      split; [assumption|]. split; [lia|]. split; [assumption|]. rewrite H2. nia.
    + exfalso. apply Hr. right. right. right. exists d. tauto.
Qed.

Lemma list3_samples z : zone_fits z -> exists r, gather_real_size z = Ok r /\ list3 (r_max r) = samples_of z /\
  r_max r = mk3 (R0 z) (R1 z) (R2 z) /\ imul3 (r_max r) = Ok (count z) /\ i2sz (count z) = count z /\ 1 <= count z.
Proof.
  intros Hz. destruct (fits_gather z Hz) as (r & Er & Em & _ & _).
  destruct (fits_ints z Hz) as [Hi Hn].
  destruct (gather_size z Hi) as [_ G]. destruct (G Hn) as (r' & Er' & Hl & Hp & _).
  rewrite Er in Er'. injection Er' as <-.
  exists r. split; [assumption|]. split; [assumption|]. split; [assumption|].
  assert (Hs : samples_of z = [R0 z; R1 z; R2 z]) by (rewrite <- Hl, Em; reflexivity).
  assert (Hc : count z = R0 z * R1 z * R2 z) by (unfold count; rewrite Hs; cbn [product fold_right]; ring).
  rewrite Hs in Hp. inversion Hp as [|? ? P0 Hp1]; subst. inversion Hp1 as [|? ? P1 Hp2]; subst.
  inversion Hp2 as [|? ? P2 _]; subst.
  destruct (real_count z Hz) as [Hrc1 Hrc]. pose proof (org_bound z Hz) as Hob.
  rewrite Hc, Em. clear - P0 P1 P2 Hrc1 Hrc Hob.
  assert (1 <= R0 z * R1 z * R2 z) by nia.
  split; [|split; [|assumption]].
  - unfold imul3. cbn [x0 x1 x2]. unfold imul.
    rewrite ck_ok by (unfold in_int; lia). cbn [rbind]. rewrite ck_ok by (unfold in_int; lia). reflexivity.
  - unfold i2sz. apply Z.mod_small. lia.
Qed.

Lemma blk_facts z d r oom :
  zone_fits z -> data_ok z d -> gather_real_size z = Ok r -> (needreal r = true -> oom = false) ->
  exists buf, make_buf1 z r oom d = Ok buf /\ holds buf (blk z d) /\ block (d_type d) (count z) (blk z d).
Proof.
  intros Hz (Ht & Hs & mem & Hf) Hr Ho.
  destruct (buffer_ok z r d mem oom Hz Hf Hr) as (buf & E & Hh & Hl).
  { intros H. apply Ho. unfold needreal. rewrite H. reflexivity. }
  assert (Hb : blk z d = block_of z (d_size d) mem).
  { unfold blk, mem_of. destruct Hf as (-> & _). rewrite Hs. reflexivity. }
  exists buf. rewrite Hb. split; [assumption|]. split; [exact Hh|].
  destruct (list3_samples z Hz) as (r' & Er & Hm3 & Em & _ & _ & Hc). rewrite Er in Hr. injection Hr as ->.
  unfold block. split; [assumption|]. split; [assumption|]. rewrite Hl, <- Hs.
  unfold count. rewrite <- Hm3. cbn [list3 product fold_right]. ring.
Qed.

Lemma no_nan_iff z d : block (d_type d) (count z) (blk z d) -> no_nan (d_type d) (blk z d) ->
  forall i, 0 <= i < count z -> value (d_type d) (blk z d) i <> NaN.
Proof.
  intros (Ht & Hc & Hl) Hn i Hi. apply Hn. rewrite Hl, Z.div_mul; [assumption|]. pose proof (width_range _ Ht). lia.
Qed.

(** ** make_buf *)

Definition bump (r : real) (n : nat) : Z := if needreal r then Z.of_nat n else 0.

Lemma make_buf_wp U z r oom d0 o (g : zone_log) l : forall k v,
  zone_fits z -> Forall (data_ok z) l -> gather_real_size z = Ok r ->
  wp U (fun s e => exists j, (j < length l)%nat /\ oom (k + j)%nat = true /\
                   (forall i, (i < j)%nat -> oom (k + i)%nat = false) /\ needreal r = true /\
                   s = (mkFs (Some d0) o (v + Z.of_nat j), g) /\ (exists m, e = ETec m))
    (make_buf z r oom k l)
    (fun s bufs => s = (mkFs (Some d0) o (v + bump r (length l)), g) /\
       Forall2 (fun d b => holds b (blk z d)) l bufs /\
       (needreal r = true -> forall i, (i < length l)%nat -> oom (k + i)%nat = false)) (mkFs (Some d0) o v, g).
Proof.
  induction l as [|d l IH]; intros k v Hz Hd Hr; cbn [make_buf].
  - apply wp_ret. split; [|split; [constructor|cbn; lia]]. unfold bump. destruct (needreal r); rewrite Z.add_0_r; reflexivity.
  - inversion Hd as [|? ? Hd1 Hd2]; subst. apply wp_bind.
    assert (Hx : (needreal r = true -> oom k = false) \/ (needreal r = true /\ oom k = true))
      by (destruct (needreal r), (oom k); auto; left; congruence).
    destruct Hx as [Hx|[Hn Ho]].
    + destruct (blk_facts z d r (oom k) Hz Hd1 Hr Hx) as (buf & E & Hh & _).
      apply (wp_lift_ok _ _ _ buf); [assumption|]. apply wp_bind, wp_live, wp_bind.
      eapply wp_conseq3; [apply (IH (S k)); assumption|auto| |].
      * intros s e (j & Hj & Hoj & Hb & Hn & -> & He). exists (S j). cbn [length].
        split; [lia|]. split; [rewrite <- plus_n_Sm; exact Hoj|].
        split; [intros [|i] Hi; [rewrite Nat.add_0_r; apply Hx; assumption|rewrite <- plus_n_Sm; apply Hb; lia]|].
        split; [assumption|]. split; [|assumption].
        rewrite Hn. do 2 f_equal. lia.
      * intros s bufs (-> & Hf & Hg). apply wp_ret. split; [|split; [constructor; assumption|]].
        2: { cbn [length]. intros Hn [|i] Hi; [rewrite Nat.add_0_r; apply Hx; assumption|rewrite <- plus_n_Sm; apply Hg; [assumption|lia]]. }
        unfold bump. cbn [length]. destruct (needreal r); do 2 f_equal; lia.
    + destruct Hd1 as (_ & _ & mem & Hf). destruct (buffer_oom z r d mem Hz Hf Hr) as [m Em].
      { unfold needreal in Hn. apply negb_true_iff. assumption. }
      unfold wp, lift. rewrite Ho. rewrite Em. exists O. cbn [length].
      split; [lia|]. rewrite Nat.add_0_r. split; [assumption|]. split; [intros; lia|]. split; [assumption|].
      split; [do 2 f_equal; lia|].
      eauto.
Qed.

(** ** Loops that only write *)

Lemma for_each_put {L A} U E (w : A -> bytes) l : forall k d o v (g : L) (Q : fs * L -> unit -> Prop),
  Q (mkFs (Some (d ++ flat_map w l)) o v, g) tt ->
  wp U E (for_each k l (fun _ a => put (w a))) Q (mkFs (Some d) o v, g).
Proof.
  induction l as [|a l IH]; intros k d o v g Q H; cbn [for_each flat_map] in *.
  - apply wp_ret. rewrite app_nil_r in H. assumption.
  - apply wp_bind, wp_put, IH. rewrite <- app_assoc. assumption.
Qed.

(** ** write_plt_data of a zone *)

Definition var_ok (z : zone) (d : tdata) (v : pvar) : Prop :=
  pv_type v = d_type d /\ pv_data v = blk z d /\ 0 <= pv_min v < 2 ^ 64 /\ 0 <= pv_max v < 2 ^ 64 /\
  (no_nan (d_type d) (blk z d) -> extrema (d_type d) (count z) (blk z d) (pv_min v) (pv_max v)).

Definition mm_bytes (v : pvar) : bytes := w_f64 (pv_min v) ++ w_f64 (pv_max v).
Definition mm_log (v : pvar) : data_log := mkDL (pv_type v) (width (pv_type v)) 0 (pv_min v) (pv_max v).
Fixpoint place (pos : Z) (vs : list pvar) : list data_log :=
  match vs with
  | [] => []
  | v :: vs' => mkDL (pv_type v) (width (pv_type v)) pos (pv_min v) (pv_max v)
                :: place (pos + Z.of_nat (length (pv_data v))) vs'
  end.

Lemma wp_zdata_upd U E k f (Q : fs * zone_log -> unit -> Prop) s pre x post z r sz t j xm :
  length pre = k ->
  Q (s, mkZL z r (pre ++ f x :: post) sz t j xm) tt ->
  wp U E (zdata_upd k f) Q (s, mkZL z r (pre ++ x :: post) sz t j xm).
Proof.
  intros <- H. unfold wp, zdata_upd. cbn [snd zl_data]. rewrite upd_nth_app. exact H.
Qed.

Lemma minmax_loop_wp U E z r l : forall bufs k d0 o v pre sz t j xm,
  zone_fits z -> gather_real_size z = Ok r -> Forall (data_ok z) l -> Forall2 (fun d b => holds b (blk z d)) l bufs -> length pre = k ->
  wp U E (for_each k (combine l bufs) (fun k p =>
      do* n := lift (imul3 (r_max r)) in
      do* (mn, mx) := lift (minmax (d_type (fst p)) (snd p) (i2sz n)) in
      put (w_f64 mn) ;;;
      put (w_f64 mx) ;;;
      zdata_upd k (fun g => mkDL (dl_type g) (dl_size g) (dl_pt g) mn mx)))
    (fun s _ => exists vs, Forall2 (var_ok z) l vs /\
       s = (mkFs (Some (d0 ++ flat_map mm_bytes vs)) o v, mkZL z r (pre ++ map mm_log vs) sz t j xm))
    (mkFs (Some d0) o v, mkZL z r (pre ++ map data_log_of l) sz t j xm).
Proof.
  induction l as [|d l IH]; intros bufs k d0 o v pre sz t j xm Hz Hr Hd Hb Hk; inversion Hb as [|? buf ? bufs' Hb1 Hb2]; subst; cbn [combine for_each map].
  - apply wp_ret. exists []. split; [constructor|]. cbn. rewrite !app_nil_r. reflexivity.
  - inversion Hd as [|? ? Hd1 Hd2]; subst. cbn [fst snd].
    destruct (list3_samples z Hz) as (r' & Er & _ & _ & Em & Ei & _). rewrite Er in Hr. injection Hr as ->.
    destruct (blk_facts z d r false Hz Hd1 Er ltac:(auto)) as (_ & _ & _ & Hblk).
    assert (Hm : exists mn mx, minmax (d_type d) buf (count z) = Ok (mn, mx) /\ 0 <= mn < 2 ^ 64 /\ 0 <= mx < 2 ^ 64 /\
      (no_nan (d_type d) (blk z d) -> extrema (d_type d) (count z) (blk z d) mn mx)).
    { destruct (minmax_total _ _ _ _ Hblk Hb1) as (mn & mx & E1 & R1 & R2). exists mn, mx. conjs; try (assumption || apply R1 || apply R2).
      intros Hn. destruct (minmax_ok _ _ _ _ Hblk Hb1 (no_nan_iff z d Hblk Hn)) as (mn' & mx' & E2 & X).
      rewrite E1 in E2. injection E2 as <- <-. assumption. }
    destruct Hm as (mn & mx & E1 & R1 & R2 & X).
    apply wp_bind. apply wp_bind. apply (wp_lift_ok _ _ _ _ _ _ Em). rewrite Ei.
    apply wp_bind. apply (wp_lift_ok _ _ _ _ _ _ E1). apply wp_bind, wp_put, wp_bind, wp_put.
    apply wp_zdata_upd; [reflexivity|]. cbn [data_log_of dl_type dl_size dl_pt].
    set (vv := mkPvar (d_type d) mn mx (blk z d)).
    assert (Hsz : d_size d = width (d_type d)) by apply Hd1. rewrite Hsz.
    replace (pre ++ mkDL (d_type d) (width (d_type d)) 0 mn mx :: map data_log_of l)
      with ((pre ++ [mm_log vv]) ++ map data_log_of l) by (rewrite <- app_assoc; reflexivity).
    eapply wp_conseq; [apply IH; try assumption|].
    + rewrite app_length. cbn [length]. lia.
    + intros s _ (vs & Hvs & ->). exists (vv :: vs). split.
      * constructor; [|assumption]. unfold var_ok, vv. cbn. tauto.
      * cbn [flat_map map]. rewrite <- !app_assoc. unfold mm_bytes at 2, vv at 2. cbn [pv_min pv_max]. rewrite <- !app_assoc. reflexivity.
Qed.

(** The sampled data of the zone is written after the extrema. *)
Lemma block_loop_wp U E z r vars l : forall bufs vs k d0 o v pre sz t j xm,
  zone_fits z -> gather_real_size z = Ok r -> Forall (data_ok z) l -> Forall2 (fun d b => holds b (blk z d)) l bufs ->
  Forall2 (var_ok z) l vs -> length pre = k -> (k + length l <= length vars)%nat ->
  (Z.testbit (z_echo z) 2 = true -> exists t' x, t = t' ++ [x]) ->
  wp U E (for_each k (combine l bufs) (fun k p =>
      do* pos := tell in
      zdata_upd k (fun g => mkDL (dl_type g) (dl_size g) pos (dl_min g) (dl_max g)) ;;;
      do* n := lift (imul3 (r_max r)) in
      fwrite (snd p) (d_size (fst p)) (i2sz n) ;;;
      (if Z.testbit (z_echo z) 2 then
         match nth_error vars k with
         | Some v => zecho_add (" <" ++ v ++ ">")
         | None => undef
         end
       else ret tt)))
    (fun s _ => exists t', s = (mkFs (Some (d0 ++ flat_map pv_data vs)) o v,
         mkZL z r (pre ++ place (Z.of_nat (length d0)) vs) sz t' j xm))
    (mkFs (Some d0) o v, mkZL z r (pre ++ map mm_log vs) sz t j xm).
Proof.
  induction l as [|d l IH]; intros bufs vs k d0 o v pre sz t j xm Hz Hr Hd Hb Hv Hk Hvars Hbit;
  inversion Hb as [|? buf ? bufs' Hb1 Hb2]; subst; inversion Hv as [|? w ? vs' Hv1 Hv2]; subst; cbn [combine for_each map].
  - apply wp_ret. exists t. cbn. rewrite !app_nil_r. reflexivity.
  - inversion Hd as [|? ? Hd1 Hd2]; subst. cbn [fst snd].
    destruct (list3_samples z Hz) as (r' & Er & _ & _ & Em & Ei & Hc). rewrite Er in Hr. injection Hr as ->.
    destruct (blk_facts z d r false Hz Hd1 Er ltac:(auto)) as (_ & _ & _ & Hblk).
    destruct Hv1 as (T1 & T2 & T3 & T4 & T5).
    apply wp_bind. apply wp_bind, wp_tell, wp_bind. apply wp_zdata_upd; [reflexivity|]. cbn [mm_log dl_type dl_size dl_min dl_max].
    apply wp_bind. apply (wp_lift_ok _ _ _ _ _ _ Em). rewrite Ei.
    assert (Hsz : d_size d = width (d_type d)) by apply Hd1.
    apply wp_bind. unfold fwrite. apply wp_bind.
    apply (wp_lift_ok _ _ _ (blk z d)).
    { destruct Hblk as (B1 & B2 & B3). pose proof (width_range _ B1).
      rewrite (peek_holds buf (blk z d)) by (try assumption; nia).
      rewrite Hsz. replace (Z.to_nat (width (d_type d) * count z)) with (length (blk z d)) by lia.
      cbn [Z.to_nat skipn]. rewrite firstn_all. reflexivity. }
    apply wp_put. rewrite <- T2.
    assert (Hn : (length pre < length vars)%nat) by (cbn [length] in Hvars; lia).
    assert (Hgo : forall t2, (Z.testbit (z_echo z) 2 = true -> exists t' x, t2 = t' ++ [x]) ->
      wp U E (for_each (S (length pre)) (combine l bufs') (fun k p =>
      do* pos := tell in
      zdata_upd k (fun g => mkDL (dl_type g) (dl_size g) pos (dl_min g) (dl_max g)) ;;;
      do* n := lift (imul3 (r_max r)) in
      fwrite (snd p) (d_size (fst p)) (i2sz n) ;;;
      (if Z.testbit (z_echo z) 2 then
         match nth_error vars k with
         | Some v => zecho_add (" <" ++ v ++ ">")
         | None => undef
         end
       else ret tt)))
       (fun s _ => exists t', s = (mkFs (Some (d0 ++ flat_map pv_data (w :: vs'))) o v,
         mkZL z r (pre ++ place (Z.of_nat (length d0)) (w :: vs')) sz t' j xm))
       (mkFs (Some (d0 ++ pv_data w)) o v, mkZL z r (pre ++ mkDL (pv_type w) (width (pv_type w)) (Z.of_nat (length d0)) (pv_min w) (pv_max w) :: map mm_log vs') sz t2 j xm)).
    { intros t2 Ht2.
      replace (pre ++ mkDL (pv_type w) (width (pv_type w)) (Z.of_nat (length d0)) (pv_min w) (pv_max w) :: map mm_log vs')
        with ((pre ++ [mkDL (pv_type w) (width (pv_type w)) (Z.of_nat (length d0)) (pv_min w) (pv_max w)]) ++ map mm_log vs')
        by (rewrite <- app_assoc; reflexivity).
      eapply wp_conseq; [apply IH; try assumption|].
      - rewrite app_length. cbn [length]. lia.
      - cbn [length] in Hvars. lia.
      - intros s _ (t' & ->). exists t'. cbn [flat_map place]. rewrite app_length, Nat2Z.inj_add.
        rewrite <- !app_assoc. reflexivity. }
    destruct (Z.testbit (z_echo z) 2) eqn:B.
    + destruct (nth_error vars (length pre)) as [s|] eqn:En; [|apply nth_error_None in En; lia].
      destruct (Hbit eq_refl) as (t' & x & ->).
      unfold wp at 1, zecho_add. cbn [snd zl_echo fst]. rewrite add_last_app. unfold zl_set_echo. cbn [zl_zone zl_real zl_data zl_size zl_json zl_xml].
      apply Hgo. intros _. eauto.
    + apply wp_ret. apply Hgo. intros; congruence.
Qed.

Lemma ints_text_ok l : exists s, ints_text l = Ok s.
Proof.
  induction l as [|x l [s IH]]; cbn [ints_text]; [eauto|].
  unfold int_text. rewrite sprintf_ok.
  - cbn [rbind]. rewrite IH. cbn [rbind]. eauto.
  - rewrite length_append. pose proof (fmt_i_length x). cbn [String.length]. lia.
Qed.

Lemma zecho_res_wp U E r (Q : fs * zone_log -> unit -> Prop) s z rr dl sz t j xm :
  (exists x, r = Ok x) -> (forall t', Q (s, mkZL z rr dl sz t' j xm) tt) ->
  wp U E (zecho_res r) Q (s, mkZL z rr dl sz t j xm).
Proof. intros [x ->] H. unfold zecho_res. apply wp_bind. apply (wp_lift_ok _ _ _ x); [reflexivity|]. apply wp_upd. apply H. Qed.

Lemma zone_echo_wp U E z r (Q : fs * zone_log -> unit -> Prop) s zz rr dl sz t j xm :
  (forall t', Q (s, mkZL zz rr dl sz t' j xm) tt) ->
  wp U E (zone_echo z r) Q (s, mkZL zz rr dl sz t j xm).
Proof.
  intros H. unfold zone_echo.
  assert (Hopt : forall (b : bool) x (Q' : fs * zone_log -> unit -> Prop) t0, (exists y, x = Ok y) -> (forall t', Q' (s, mkZL zz rr dl sz t' j xm) tt) ->
    wp U E (if b then zecho_res x else ret tt) Q' (s, mkZL zz rr dl sz t0 j xm)).
  { intros [] x Q' t0 Hx HQ; [apply zecho_res_wp; assumption | apply wp_ret, HQ]. }
  apply wp_bind, Hopt; [|intros t1].
  { rewrite sprintf_ok.
    - cbn [rbind]. destruct (ints_text_ok (firstn (Z.to_nat (r_rdim r)) (list3 (r_max r)))) as [y ->]. cbn [rbind]. eauto.
    - rewrite !length_append. pose proof (fmt_i_length (r_rdim r)). cbn [String.length]. lia. }
  apply wp_bind, Hopt; [|intros t2].
  { destruct (ints_text_ok (list3 (z_max z))) as [y ->]. cbn [rbind]. eauto. }
  apply wp_bind, Hopt; [|intros t3].
  { destruct (ints_text_ok (list3 (z_skip z))) as [y ->]. cbn [rbind]. eauto. }
  apply wp_bind, Hopt; [|intros t4].
  { destruct (ints_text_ok (list3 (z_begin z))) as [y ->]. cbn [rbind].
    destruct (ints_text_ok (list3 (z_end z))) as [y' ->]. cbn [rbind]. eauto. }
  apply Hopt; [|assumption]. rewrite sprintf_ok; [eauto|].
  rewrite !length_append. pose proof (fmt_i_length (z_strand z)). pose proof (fmt_le_length (z_time z)). cbn [String.length]. lia.
Qed.

Lemma var_len z d w : zone_fits z -> data_ok z d -> var_ok z d w ->
  Z.of_nat (length (pv_data w)) = count z * width (d_type d).
Proof.
  intros Hz Hd (_ & E & _). destruct (list3_samples z Hz) as (r & Er & _).
  destruct (blk_facts z d r false Hz Hd Er ltac:(auto)) as (_ & _ & _ & _ & _ & H). rewrite E. exact H.
Qed.

Lemma zdata_length z vs : zone_fits z -> Forall (data_ok z) (z_data z) -> Forall2 (var_ok z) (z_data z) vs ->
  Z.of_nat (length (zdata_bytes vs)) = data_size z.
Proof.
  intros Hz Hd Hv. unfold zdata_bytes, data_size. rewrite !app_length, !w_int_length, ?w_f32_length.
  fold (count z).
  assert (H : Z.of_nat (length (flat_map (fun v => w_int (pv_type v)) vs) +
     length (flat_map (fun v => w_f64 (pv_min v) ++ w_f64 (pv_max v)) vs) + length (flat_map pv_data vs)) =
     sum (map (fun d => 20 + count z * width (d_type d)) (z_data z))).
  { revert vs Hv Hd. generalize (z_data z). induction l as [|d l IH]; intros vs Hv Hd; inversion Hv as [|? w ? vs' Hv1 Hv2]; subst; [reflexivity|].
    inversion Hd; subst. cbn [flat_map map sum fold_right]. rewrite !app_length, w_int_length, !w_f64_length.
    fold (sum (map (fun d => 20 + count z * width (d_type d)) l)). rewrite <- (IH vs') by assumption.
    pose proof (var_len z d w Hz ltac:(assumption) Hv1). lia. }
  lia.
Qed.

Lemma wp_zecho_if U E (b : bool) s0 (Q : fs * zone_log -> unit -> Prop) s zz rr dl sz t j xm :
  (forall t', (b = true -> exists t0 x, t' = t0 ++ [x]) -> Q (s, mkZL zz rr dl sz t' j xm) tt) ->
  wp U E (if b then zecho s0 else ret tt) Q (s, mkZL zz rr dl sz t j xm).
Proof. intros H. destruct b; [apply wp_upd | apply wp_ret]; apply H; [eauto|congruence]. Qed.

Lemma zone_data_wp U vars oom z r d0 o v :
  zone_good vars z -> gather_real_size z = Ok r -> data_size z < 2 ^ 63 ->
  wp U (fun s e => exists j b, (j < length (z_data z))%nat /\ oom j = true /\ (forall i, (i < j)%nat -> oom i = false) /\ needreal r = true /\
          s = (mkFs (Some (d0 ++ b)) o (v + Z.of_nat j), mkZL z r (map data_log_of (z_data z)) 0 [] [] []) /\
          (exists m, e = ETec m))
    (zone_data vars oom z r)
    (fun s _ => exists vs t, Forall2 (var_ok z) (z_data z) vs /\
       (needreal r = true -> forall i, (i < length (z_data z))%nat -> oom i = false) /\
       s = (mkFs (Some (d0 ++ zdata_bytes vs)) o v,
            mkZL z r (place (Z.of_nat (length d0) + 16 + 20 * Z.of_nat (length (z_data z))) vs) (data_size z) t [] []))
    (mkFs (Some d0) o v, mkZL z r (map data_log_of (z_data z)) 0 [] [] []).
Proof.
  intros (Hz & _ & _ & _ & Hlen & Hd) Hr Hsize. unfold zone_data.
  apply wp_bind, wp_tell, wp_bind, wp_put, wp_bind.
  apply (for_each_put U _ (fun d => w_int (d_type d)) (z_data z)).
  apply wp_bind, wp_put, wp_bind, wp_put, wp_bind, wp_put, wp_bind.
  eapply wp_conseq3; [apply make_buf_wp; try eassumption|intros H; exact H| |].
  { intros s e (j & Hj & Ho & Hbe & Hn & -> & He). exists j. eexists. split; [assumption|]. split; [exact Ho|]. split; [exact Hbe|]. split; [assumption|].
    split; [|assumption]. rewrite <- !app_assoc. reflexivity. }
  intros s bufs (-> & Hb & Hfine). apply wp_bind.
  eapply wp_conseq; [apply (minmax_loop_wp U _ z r (z_data z) bufs 0 _ o _ []); try assumption; reflexivity|].
  intros s _ (vs & Hvs & ->). apply wp_bind. apply zone_echo_wp. intros t1.
  apply wp_bind. apply wp_zecho_if. intros t2 Ht2. apply wp_bind.
  eapply wp_conseq; [apply (block_loop_wp U _ z r vars (z_data z) bufs vs 0 _ o _ []); try assumption; [reflexivity|cbn [Nat.add]; lia]|].
  intros s _ (t3 & ->). apply wp_bind. unfold realise_buf. apply wp_live.
  apply wp_bind, wp_tell, wp_bind, wp_upd. unfold zl_set_size. cbn [zl_zone zl_real zl_data zl_echo zl_json zl_xml app].
  rewrite <- !app_assoc.
  assert (Hdisk : w_f32 F299 ++ flat_map (fun d => w_int (d_type d)) (z_data z) ++ w_int 0 ++ w_int 0 ++ w_int (-1)
    ++ flat_map mm_bytes vs ++ flat_map pv_data vs = zdata_bytes vs).
  { unfold zdata_bytes. f_equal. f_equal.
    clear - Hvs. induction Hvs as [|d w l l' H Hvs IH]; [reflexivity|]. cbn [flat_map]. rewrite IH. destruct H as (-> & _). reflexivity. }
  rewrite Hdisk.
  assert (Hlive : v + bump r (length (z_data z)) + (if needreal r then - Z.of_nat (length (z_data z)) else 0) = v)
    by (unfold bump; destruct (needreal r); lia).
  rewrite Hlive.
  assert (Hpos : Z.of_nat (length (d0 ++ w_f32 F299 ++ flat_map (fun d => w_int (d_type d)) (z_data z) ++ w_int 0 ++ w_int 0 ++ w_int (-1)
    ++ flat_map mm_bytes vs)) = Z.of_nat (length d0) + 16 + 20 * Z.of_nat (length (z_data z))).
  { rewrite !app_length, !w_int_length, ?w_f32_length.
    rewrite (flat_map_length_const _ _ 4%nat) by (intros; apply w_int_length).
    rewrite (flat_map_length_const mm_bytes _ 16%nat) by (intros; unfold mm_bytes; rewrite app_length, !w_f64_length; reflexivity).
    assert (length vs = length (z_data z)) by (clear - Hvs; induction Hvs; cbn; congruence). lia. }
  rewrite Hpos.
  assert (Hsz : Z.of_nat (length (d0 ++ zdata_bytes vs)) - Z.of_nat (length d0) = data_size z).
  { rewrite app_length. rewrite <- (zdata_length z vs) by assumption. lia. }
  rewrite Hsz.
  destruct (Z.testbit (z_echo z) 8).
  - apply zecho_res_wp; [|intros t4; exists vs, t4; split; [assumption|split; [exact Hfine|reflexivity]]].
    rewrite sprintf_ok; [eauto|]. rewrite !length_append. cbn [String.length].
    assert (Hds : 0 <= data_size z) by (rewrite <- (zdata_length z vs) by assumption; lia).
    pose proof (fmt_fixed_length 1 (data_size z) (2 ^ 20) 19 Hds ltac:(lia)) as HF.
    assert (data_size z < (10 ^ Z.of_nat 20 - 1) * 2 ^ 20) as Hb2.
    { eapply Z.lt_trans; [exact Hsize|]. reflexivity. }
    specialize (HF Hb2). lia.
  - apply wp_ret. exists vs, t3. split; [assumption|split; [exact Hfine|reflexivity]].
Qed.
