(** write_plt of a file: every outcome. *)

From Coq Require Import ZArith Ascii String List Bool Lia.
From Verif Require Import Base M_Bytes M_TecZone M_TecFile Spec_Loop Spec_Tec Spec_Plt
  L_Base L_TecZone L_TecMin L_Plt L_Text L_TecWrite.
Import ListNotations.
Open Scope list_scope.
Open Scope Z_scope.

(** ** wrtie_plt_pre *)

Definition real_of (z : zone) : real :=
  match gather_real_size z with Ok r => r | _ => mkReal 0 0 (mk3 0 0 0) true true end.
Definition log0 (z : zone) : zone_log := mkZL z (real_of z) (map data_log_of (z_data z)) 0 [] [] [].

Lemma pre_data_ok z vars l : forall k s g,
  Forall (fun d => data_unset d = false) l ->
  pre_data z vars k l (s, g) = Ret (s, zl_set_data (zl_data g ++ map data_log_of l) g) tt.
Proof.
  induction l as [|d l IH]; intros k s g H; cbn [pre_data map].
  - rewrite app_nil_r. destruct g. reflexivity.
  - inversion H as [|? ? H1 H2]; subst. unfold bind, upd_snd. cbn [fst snd]. rewrite H1, IH by assumption.
    destruct g. unfold zl_set_data. cbn. rewrite <- app_assoc. reflexivity.
Qed.
Lemma pre_data_bad z vars l : forall k s g,
  Exists (fun d => data_unset d = true) l -> exists g' m, pre_data z vars k l (s, g) = Thr (s, g') (ETec m).
Proof.
  induction l as [|d l IH]; intros k s g H; [inversion H|]. cbn [pre_data]. unfold bind, upd_snd. cbn [fst snd].
  destruct (data_unset d) eqn:E; [unfold throw; eauto|]. inversion H; subst; [congruence|]. apply IH. assumption.
Qed.

Lemma zone_pre_ok vars z s :
  zone_good vars z -> zone_pre vars z (s, zone_log_of z) = Ret (s, log0 z) (real_of z).
Proof.
  intros (Hz & _ & _ & Hne & Hl & Hd). unfold zone_pre, bind, lift, real_of, log0.
  destruct (list3_samples z Hz) as (r & Er & _). rewrite Er. unfold upd_snd. cbn [fst snd].
  destruct (length (z_data z) =? 0)%nat eqn:E0.
  { apply Nat.eqb_eq in E0. destruct (z_data z); [congruence|discriminate]. }
  rewrite Hl, Nat.eqb_refl. cbn [negb].
  rewrite pre_data_ok; [unfold ret, real_of; rewrite Er; reflexivity|].
  eapply Forall_impl; [|exact Hd]. intros d (Ht & Hs & mem & Hf & _). unfold data_unset. rewrite Hf.
  pose proof (width_range _ Ht). destruct (d_type d =? 0) eqn:F; zcmp; [lia|]. destruct (d_size d =? 0) eqn:G; zcmp; [lia|reflexivity].
Qed.

Lemma gather_err z : all_dirs dir_ints z -> some_dir dir_bad z -> exists m, gather_real_size z = Err (ETec m).
Proof.
  intros Hi Hb. destruct (gather_size z Hi) as [G _]. destruct (G Hb) as [e He]. clear G.
  assert (Hc : forall n x a b c d e0, gather_check n x a b c d = Err e0 -> exists m, e0 = ETec m).
  { intros n x a b c d e0. unfold gather_check. destruct (_ =? 0); [intros H; injection H as <-; eauto|].
    destruct (_ =? 0); [intros H; injection H as <-; eauto|]. unfold iadd, ck. destruct (in_intb _); cbn [rbind]; [|discriminate].
    destruct (_ <=? _); [intros H; injection H as <-; eauto|discriminate]. }
  assert (Hg : forall a b c d e0, gather_real a b c d = Err e0 -> False).
  { intros a b c d e0. unfold gather_real, isub, iadd, idiv, irem, ck.
    repeat (match goal with |- context [if ?b then _ else _] => destruct b end; cbn [rbind]; try discriminate). }
  unfold gather_real_size in *.
  destruct (gather_check (z_name z) "I" _ _ _ _) eqn:E0; cbn [rbind] in He |- *; try discriminate; [|apply Hc in E0; destruct E0 as [m ->]; eauto].
  destruct (gather_check (z_name z) "J" _ _ _ _) eqn:E1; cbn [rbind] in He |- *; try discriminate; [|apply Hc in E1; destruct E1 as [m ->]; eauto].
  destruct (gather_check (z_name z) "K" _ _ _ _) eqn:E2; cbn [rbind] in He |- *; try discriminate; [|apply Hc in E2; destruct E2 as [m ->]; eauto].
  destruct (gather_real (x2 _) _ _ _) eqn:F2; cbn [rbind] in He |- *; try discriminate; [|apply Hg in F2; destruct F2].
  destruct (gather_real (x1 _) _ _ _) eqn:F1; cbn [rbind] in He |- *; try discriminate; [|apply Hg in F1; destruct F1].
  destruct (gather_real (x0 _) _ _ _) eqn:F0; cbn [rbind] in He |- *; try discriminate. apply Hg in F0; destruct F0.
Qed.

Lemma zone_pre_bad f z s :
  zone_wf z -> refused_zone f z -> exists g m, zone_pre (f_vars f) z (s, zone_log_of z) = Thr (s, g) (ETec m).
Proof.
  intros Hw Hr. unfold zone_pre, bind, lift.
  destruct (some_dir_dec z) as [Hb|Hb].
  { destruct (gather_err z ltac:(apply Hw) Hb) as [m Em]. rewrite Em. eauto. }
  destruct (gather_size z ltac:(apply Hw)) as [_ G]. destruct (G Hb) as (r & Er & _). rewrite Er. unfold upd_snd. cbn [fst snd].
  destruct (length (z_data z) =? 0)%nat eqn:E0; [unfold throw; eauto|].
  destruct (length (z_data z) =? length (f_vars f))%nat eqn:E1; cbn [negb]; [|unfold throw; eauto].
  apply Nat.eqb_eq in E1. apply Nat.eqb_neq in E0.
  assert (Hex : Exists (fun d => data_unset d = true) (z_data z)).
  { destruct Hr as [Hr|[Hr|[Hr|(d & Hin & Hr)]]]; [tauto|rewrite Hr in E0; cbn in E0; congruence|congruence|].
    apply Exists_exists. exists d. split; [assumption|]. unfold data_unset. rewrite Hr. reflexivity. }
  destruct (pre_data_bad z (f_vars f) (z_data z) 0 s (zl_set_real r (zone_log_of z)) Hex) as (g & m & ->). eauto.
Qed.

(** Log of the file with everything but the zones as at the start. *)
Definition start_log (e : env) (f : tfile) (zs : list zone_log) : file_log := mkFL f zs (e_begin e) "" 0 0 "" [] [] [].

Lemma on_zone_eq {A} (m : M (fs * zone_log) A) pre x post s g :
  fl_zones g = pre ++ x :: post ->
  on_zone (length pre) m (s, g) =
  match m (s, x) with
  | Ret s' a => Ret (fst s', fl_set_zones (pre ++ snd s' :: post) g) a
  | Thr s' e => Thr (fst s', fl_set_zones (pre ++ snd s' :: post) g) e
  | Undef => Undef
  end.
Proof.
  intros E. unfold on_zone. cbn [fst snd]. rewrite E, nth_error_mid.
  destruct (m (s, x)) as [s' a|s' e'|]; try reflexivity; rewrite upd_nth_app; reflexivity.
Qed.

Lemma pre_zones_ok e f l : forall done s,
  Forall (zone_good (f_vars f)) l ->
  pre_zones f (length done) l (s, start_log e f done) = Ret (s, start_log e f (done ++ map log0 l)) (map real_of l).
Proof.
  induction l as [|z l IH]; intros done s H; cbn [pre_zones map].
  - rewrite app_nil_r. reflexivity.
  - inversion H as [|? ? H1 H2]; subst. unfold bind at 1, catch_err, bind at 1, upd_snd at 1. cbn [fst snd].
    rewrite (on_zone_eq _ done (zone_log_of z) []) by reflexivity.
    rewrite zone_pre_ok by assumption. cbn [fst snd].
    change (fl_set_zones (done ++ [log0 z]) _) with (start_log e f (done ++ [log0 z])).
    unfold bind. replace (S (length done)) with (length (done ++ [log0 z])) by (rewrite app_length; cbn; lia).
    rewrite IH by assumption. rewrite <- app_assoc. reflexivity.
Qed.

Lemma refused_zone_dec f z : zone_wf z -> refused_zone f z \/ ~ refused_zone f z.
Proof.
  intros _. unfold refused_zone. destruct (some_dir_dec z) as [B|B]; [tauto|].
  destruct (z_data z) as [|d0 l0] eqn:E; [tauto|]. rewrite <- E.
  destruct (Nat.eq_dec (length (z_data z)) (length (f_vars f))); [|tauto].
  destruct (Exists_dec (fun d => d_mem d = None) (z_data z)) as [H|H].
  - intros d. destruct (d_mem d); [right; discriminate|left; reflexivity].
  - left. apply Exists_exists in H. tauto.
  - right. intros [C|[C|[C|C]]]; try tauto; [congruence|]. apply H. apply Exists_exists. assumption.
Qed.

Lemma pre_zones_bad e f l : forall done s,
  Forall zone_wf l -> Exists (refused_zone f) l ->
  exists zs m, pre_zones f (length done) l (s, start_log e f done) =
    Thr (s, fl_set_error m (start_log e f zs)) (ETec m).
Proof.
  induction l as [|z l IH]; intros done s H Hx; [inversion Hx|]. cbn [pre_zones].
  inversion H as [|? ? H1 H2]; subst. unfold bind at 1, catch_err, bind at 1, upd_snd at 1. cbn [fst snd].
  rewrite (on_zone_eq _ done (zone_log_of z) []) by reflexivity.
  destruct (refused_zone_dec f z H1) as [Hr|Hr].
  - destruct (zone_pre_bad f z s H1 Hr) as (g & m & ->). cbn [fst snd what]. eexists _, _. reflexivity.
  - rewrite zone_pre_ok by (apply wf_good; assumption). cbn [fst snd].
    change (fl_set_zones (done ++ [log0 z]) _) with (start_log e f (done ++ [log0 z])).
    unfold bind. replace (S (length done)) with (length (done ++ [log0 z])) by (rewrite app_length; cbn; lia).
    destruct (IH (done ++ [log0 z]) s H2) as (zs & m & ->); [inversion Hx; subst; [tauto|assumption]|]. eauto.
Qed.

Lemma file_pre_ok e f s :
  f_vars f <> [] -> f_zones f <> [] -> Forall (zone_good (f_vars f)) (f_zones f) ->
  file_pre f (s, start_log e f []) = Ret (s, start_log e f (map log0 (f_zones f))) (map real_of (f_zones f)).
Proof.
  intros Hv Hz H. unfold file_pre.
  destruct (length (f_vars f) =? 0)%nat eqn:E1; [apply Nat.eqb_eq in E1; destruct (f_vars f); [congruence|discriminate]|].
  destruct (length (f_zones f) =? 0)%nat eqn:E2; [apply Nat.eqb_eq in E2; destruct (f_zones f); [congruence|discriminate]|].
  apply (pre_zones_ok e f (f_zones f) []). assumption.
Qed.
Lemma file_pre_bad e f s : file_wf f -> refused f ->
  exists zs m, file_pre f (s, start_log e f []) = Thr (s, fl_set_error m (start_log e f zs)) (ETec m).
Proof.
  intros (_ & _ & _ & Hw) Hr. unfold file_pre.
  destruct (length (f_vars f) =? 0)%nat eqn:E1; [eexists _, _; reflexivity|].
  destruct (length (f_zones f) =? 0)%nat eqn:E2; [eexists _, _; reflexivity|].
  apply Nat.eqb_neq in E1, E2.
  apply (pre_zones_bad e f (f_zones f) []); [assumption|].
  destruct Hr as [Hr|[Hr|(z & Hin & Hr)]]; [rewrite Hr in E1; cbn in E1; congruence|rewrite Hr in E2; cbn in E2; congruence|].
  apply Exists_exists. eauto.
Qed.

Lemma not_refused_good f : file_wf f -> ~ refused f ->
  f_vars f <> [] /\ f_zones f <> [] /\ Forall (zone_good (f_vars f)) (f_zones f).
Proof.
  intros (_ & _ & _ & Hw) Hr. unfold refused in Hr. split; [tauto|]. split; [tauto|].
  apply Forall_forall. intros z Hz. rewrite Forall_forall in Hw. apply wf_good; [apply Hw; assumption|].
  intros C. apply Hr. right. right. eauto.
Qed.
Lemma refused_dec f : file_wf f -> refused f \/ ~ refused f.
Proof.
  intros (_ & _ & _ & Hw). unfold refused. rewrite Forall_forall in Hw.
  assert (H : (exists z, In z (f_zones f) /\ refused_zone f z) \/ ~ (exists z, In z (f_zones f) /\ refused_zone f z)).
  { induction (f_zones f) as [|z zs IH]; [right; intros (z & [] & _)|].
    destruct (refused_zone_dec f z) as [Hz|Hz]; [apply Hw; left; reflexivity| |].
    - left. exists z. split; [left; reflexivity|assumption].
    - destruct IH as [(z' & H1 & H2)|IH]; [intros x Hx; apply Hw; right; assumption| |].
      + left. exists z'. split; [right; assumption|assumption].
      + right. intros (z' & [<-|H1] & H2); [contradiction|]. apply IH. eauto. }
  assert (H1 : f_vars f = [] \/ f_vars f <> []) by (destruct (f_vars f); [left; reflexivity|right; discriminate]).
  assert (H2 : f_zones f = [] \/ f_zones f <> []) by (destruct (f_zones f); [left; reflexivity|right; discriminate]).
  tauto.
Qed.

(** ** Lines of the file's text *)

Definition flog (e : env) (f : tfile) (zs : list zone_log) (t : list string) : file_log :=
  mkFL f zs (e_begin e) "" 0 0 "" t [] [].
Definition zcount (t : list string) : nat := count_occ string_dec t ZONE_LINE.

(** A text which cannot become a zone line whatever follows. *)
Definition harmless (s : string) : Prop := forall s', (s ++ s')%string <> ZONE_LINE.

Lemma harmless_app a b : harmless a -> harmless (a ++ b)%string.
Proof. intros H s'. rewrite append_assoc. apply H. Qed.
Lemma harmless_neq a : harmless a -> a <> ZONE_LINE.
Proof. intros H. rewrite <- (append_nil_r a). apply H. Qed.
Lemma zcount_app a b : zcount (a ++ b) = (zcount a + zcount b)%nat.
Proof. apply count_occ_app. Qed.
Lemma zcount_one s : s <> ZONE_LINE -> zcount [s] = O.
Proof. intros H. unfold zcount. cbn. destruct (string_dec _ _); [contradiction|reflexivity]. Qed.

Ltac harm := let s := fresh in intros s; cbn; discriminate.

Lemma wp_fecho_if U E (b : bool) s (Q : fs * file_log -> unit -> Prop) st e f zs t :
  s <> ZONE_LINE ->
  (forall t', zcount t' = zcount t -> (b = true -> exists t0, t' = t0 ++ [s]) -> Q (st, flog e f zs t') tt) ->
  wp U E (if b then fecho s else ret tt) Q (st, flog e f zs t).
Proof.
  intros Hs H. destruct b; [apply wp_upd | apply wp_ret]; apply H; try congruence; [|eauto].
  change (zcount (t ++ [s]) = zcount t). rewrite zcount_app, zcount_one by assumption. lia.
Qed.

Lemma wp_fecho_add U E s (Q : fs * file_log -> unit -> Prop) st e f zs t0 x :
  Q (st, flog e f zs (t0 ++ [(x ++ s)%string])) tt ->
  wp U E (fecho_add s) Q (st, flog e f zs (t0 ++ [x])).
Proof. intros H. unfold wp, fecho_add. cbn [snd flog fl_echo fst]. rewrite add_last_app. exact H. Qed.

(** ** write_plt_head *)

Lemma vars_loop_wp U E e f zs (b : bool) l : forall k d o v t (Q : fs * file_log -> unit -> Prop),
  (b = true -> exists t0 x, t = t0 ++ [x] /\ harmless x) ->
  (forall t', zcount t' = zcount t -> Q (mkFs (Some (d ++ flat_map w_string l)) o v, flog e f zs t') tt) ->
  wp U E (for_each k l (fun _ s => put (w_string s) ;;; (if b then fecho_add (" <" ++ s ++ ">") else ret tt))) Q
    (mkFs (Some d) o v, flog e f zs t).
Proof.
  induction l as [|s l IH]; intros k d o v t Q Hb H; cbn [for_each flat_map] in *.
  - apply wp_ret. rewrite app_nil_r in H. apply H. reflexivity.
  - apply wp_bind, wp_bind, wp_put. destruct b.
    + destruct (Hb eq_refl) as (t0 & x & -> & Hx). apply wp_fecho_add. apply IH.
      * intros _. eexists _, _. split; [reflexivity|]. apply harmless_app. assumption.
      * intros t' Ht'. rewrite <- app_assoc. apply H. rewrite Ht', !zcount_app, !zcount_one; [reflexivity| |]; apply harmless_neq; [assumption|apply harmless_app; assumption].
    + apply wp_ret. apply IH; [congruence|]. intros t' Ht'. rewrite <- app_assoc. apply H. assumption.
Qed.

Lemma aux_loop_wp U E e f zs l : forall k d o v t (Q : fs * file_log -> unit -> Prop),
  Q (mkFs (Some (d ++ flat_map (fun q => w_f32 F799 ++ pair_bytes q) l)) o v, flog e f zs t) tt ->
  wp U E (for_each k l (fun _ p => put (w_f32 F799) ;;; put (w_string (fst p)) ;;; put (w_int 0) ;;; put (w_string (snd p)))) Q
    (mkFs (Some d) o v, flog e f zs t).
Proof.
  induction l as [|p l IH]; intros k d o v t Q H; cbn [for_each flat_map] in *.
  - apply wp_ret. rewrite app_nil_r in H. assumption.
  - apply wp_bind, wp_bind, wp_put, wp_bind, wp_put, wp_bind, wp_put, wp_put. apply IH.
    unfold pair_bytes at 1 in H. rewrite <- !app_assoc in *. assumption.
Qed.

(** What the reader of Spec_Plt.v calls the head of a zone. *)
Definition head_of (z : zone) : head := mkHead (z_name z) (z_strand z) (z_time z) (samples_of z) (z_aux z).

Lemma real_of_facts z : zone_fits z ->
  gather_real_size z = Ok (real_of z) /\ list3 (r_max (real_of z)) = samples_of z.
Proof.
  intros Hz. destruct (list3_samples z Hz) as (r & Er & Hl & _). unfold real_of. rewrite Er. auto.
Qed.

Lemma zone_head_eq z : zone_fits z -> zone_head z (real_of z) = w_f32 F299 ++ head_bytes (head_of z).
Proof.
  intros Hz. destruct (real_of_facts z Hz) as [_ Hl]. unfold zone_head, head_bytes, head_of. cbn [h_name h_strand h_time h_size h_aux].
  rewrite <- Hl. cbn [list3 flat_map]. unfold auxs_bytes, pair_bytes. rewrite app_nil_r, <- !app_assoc. reflexivity.
Qed.

Definition head_of_file (f : tfile) : bytes :=
  magic ++ w_int 1 ++ w_int (f_type f) ++ w_string (f_title f) ++ w_int (Z.of_nat (length (f_vars f)))
  ++ flat_map w_string (f_vars f)
  ++ flat_map (fun z => w_f32 F299 ++ head_bytes (head_of z)) (f_zones f)
  ++ flat_map (fun q => w_f32 F799 ++ pair_bytes q) (f_aux f).

Lemma combine_map {A B} (g : A -> B) l : combine l (map g l) = map (fun a => (a, g a)) l.
Proof. induction l as [|a l IH]; cbn; [reflexivity|]. rewrite IH. reflexivity. Qed.

Lemma file_head_wp U E e f zs d o v t (Q : fs * file_log -> unit -> Prop) :
  Forall zone_fits (f_zones f) ->
  (forall t', zcount t' = zcount t -> Q (mkFs (Some (d ++ head_of_file f)) o v, flog e f zs t') tt) ->
  wp U E (file_head f (map real_of (f_zones f))) Q (mkFs (Some d) o v, flog e f zs t).
Proof.
  intros Hz H. unfold file_head.
  apply wp_bind, wp_put, wp_bind, wp_put, wp_bind, wp_put, wp_bind, wp_put, wp_bind, wp_put, wp_bind.
  apply wp_fecho_if; [discriminate|]. intros t1 Ht1 Hb1. apply wp_bind.
  apply vars_loop_wp.
  - intros B. destruct (Hb1 B) as [t0 ->]. eexists _, _. split; [reflexivity|]. harm.
  - intros t2 Ht2. apply wp_bind. rewrite combine_map.
    apply (for_each_put U E (fun p => zone_head (fst p) (snd p)) (map (fun a => (a, real_of a)) (f_zones f))).
    apply aux_loop_wp.
    replace (flat_map (fun p => zone_head (fst p) (snd p)) (map (fun a => (a, real_of a)) (f_zones f)))
      with (flat_map (fun z => w_f32 F299 ++ head_bytes (head_of z)) (f_zones f)).
    + unfold head_of_file in H. specialize (H t2 ltac:(congruence)). rewrite <- !app_assoc in *. assumption.
    + rewrite flat_map_map. cbn [fst snd]. clear - Hz. induction Hz as [|z l H1 H2 IH]; [reflexivity|].
      cbn [flat_map]. rewrite IH, zone_head_eq by assumption. reflexivity.
Qed.

(** ** write_plt_data *)

Definition zlog_ok (pos : Z) (z : zone) (vs : list pvar) (g : zone_log) : Prop :=
  exists t, g = mkZL z (real_of z) (place (pos + 16 + 20 * Z.of_nat (length (z_data z))) vs) (data_size z) t [] [].
Fixpoint logs_ok (pos : Z) (zs : list zone) (pvs : list (list pvar)) (gs : list zone_log) : Prop :=
  match zs, pvs, gs with
  | [], [], [] => True
  | z :: zs', vs :: pvs', g :: gs' => zlog_ok pos z vs g /\ logs_ok (pos + Z.of_nat (length (zdata_bytes vs))) zs' pvs' gs'
  | _, _, _ => False
  end.

Lemma zone_line_cases i z :
  (exists s, zone_line i z = Ok s /\ s <> ZONE_LINE) \/ zone_line i z = UB.
Proof.
  unfold zone_line. match goal with |- context [sprintf 100 ?x] => destruct (sprintf_cases 100 x) as [[_ ->]|[_ ->]] end; [left|right; reflexivity].
  eexists. split; [reflexivity|]. apply harmless_neq. apply harmless_app. harm.
Qed.

Lemma wp_line (U : Prop) E (b : bool) i z (Q : fs * file_log -> unit -> Prop) st e f zs t :
  (b = true -> zone_line i z = UB -> U) ->
  ((b = true -> zone_line i z <> UB) -> forall t', zcount t' = zcount t -> Q (st, flog e f zs t') tt) ->
  wp U E (if b then fecho_res (zone_line i z) else ret tt) Q (st, flog e f zs t).
Proof.
  intros HU H. destruct b; [|apply wp_ret; apply H; congruence].
  unfold fecho_res. apply wp_bind. destruct (zone_line_cases i z) as [(s & E1 & Hs)|E1].
  - apply (wp_lift_ok _ _ _ s); [exact E1|]. apply wp_upd.
    change (Q (st, flog e f zs (t ++ [s])) tt). apply H; [congruence|]. rewrite zcount_app, zcount_one by assumption. lia.
  - unfold wp, lift. rewrite E1. apply HU; auto.
Qed.

Lemma wp_on_zone {A} (U : Prop) (E : fs * file_log -> exn -> Prop) (E' : fs * zone_log -> exn -> Prop) (m : M (fs * zone_log) A) (Q' : fs * zone_log -> A -> Prop) (Q : fs * file_log -> A -> Prop)
  s e f pre x post t :
  wp U E' m Q' (s, x) ->
  (forall s' x' a, Q' (s', x') a -> Q (s', flog e f (pre ++ x' :: post) t) a) ->
  (forall s' x' er, E' (s', x') er -> E (s', flog e f (pre ++ x' :: post) t) er) ->
  wp U E (on_zone (length pre) m) Q (s, flog e f (pre ++ x :: post) t).
Proof.
  intros H HQ HE. unfold wp in *. rewrite (on_zone_eq m pre x post) by reflexivity.
  destruct (m (s, x)) as [[s' x'] a|[s' x'] er|]; cbn [fst snd].
  - apply HQ. assumption.
  - apply HE. assumption.
  - assumption.
Qed.

(** The lines naming a zone before and after its data. *)
Definition lines_fit (i : nat) (z : zone) : Prop :=
  Z.testbit (z_echo z) 0 || Z.testbit (z_echo z) 1 = true -> zone_line i z <> UB.

(** All buffers of zone [i] can be made. *)
Definition zfine (e : env) (i : nat) (z : zone) : Prop :=
  needreal (real_of z) = true -> forall k, (k < length (z_data z))%nat -> e_oom e i k = false.

Lemma file_data_loop (U : Prop) e f zs : forall done d o v t,
  Forall (zone_good (f_vars f)) zs -> Forall (fun z => data_size z < 2 ^ 63) zs ->
  (forall j z, nth_error zs j = Some z -> ~ lines_fit (length done + j) z -> U) ->
  wp U
    (fun s er => exists j k z b zs' t', nth_error zs j = Some z /\ (k < length (z_data z))%nat /\
        e_oom e (length done + j) k = true /\ needreal (real_of z) = true /\
        (forall i, (i < k)%nat -> e_oom e (length done + j) i = false) /\
        (forall j' z', (j' < j)%nat -> nth_error zs j' = Some z' -> zfine e (length done + j') z') /\
        s = (mkFs (Some (d ++ b)) o (v + Z.of_nat k), flog e f zs' t') /\
        length zs' = (length done + length zs)%nat /\ (zcount t' <= zcount t + length zs)%nat /\
        (exists m, er = ETec m))
    (for_each (length done) (map (fun a => (a, real_of a)) zs) (fun i p =>
      let z := fst p in
      (if Z.testbit (z_echo z) 0 then fecho_res (zone_line i z) else ret tt) ;;;
      on_zone i (zone_data (f_vars f) (e_oom e i) z (snd p)) ;;;
      fecho "#ZONE#" ;;;
      (if Z.testbit (z_echo z) 1 then fecho_res (zone_line i z) else ret tt)))
    (fun s _ => exists pvs gs t', Forall2 (fun z vs => Forall2 (var_ok z) (z_data z) vs) zs pvs /\
       logs_ok (Z.of_nat (length d)) zs pvs gs /\
       zcount t' = (zcount t + length zs)%nat /\
       (forall j z, nth_error zs j = Some z -> lines_fit (length done + j) z) /\
       (forall j z, nth_error zs j = Some z -> zfine e (length done + j) z) /\
       s = (mkFs (Some (d ++ flat_map zdata_bytes pvs)) o v, flog e f (done ++ gs) t'))
    (mkFs (Some d) o v, flog e f (done ++ map log0 zs) t).
Proof.
  induction zs as [|z zs IH]; intros done d o v t Hg Hs HU; cbn [map for_each].
  - apply wp_ret. exists [], [], t. split; [constructor|]. split; [exact I|]. split; [cbn; lia|].
    split; [intros [|j] ? H; discriminate|]. split; [intros [|j] ? H; discriminate|]. cbn. rewrite !app_nil_r. reflexivity.
  - inversion Hg as [|? ? Hg1 Hg2]; subst. inversion Hs as [|? ? Hs1 Hs2]; subst. cbn [fst snd].
    assert (Hr : gather_real_size z = Ok (real_of z)) by (apply real_of_facts; apply Hg1).
    assert (HU0 : ~ lines_fit (length done) z -> U) by (intros H; apply (HU O z eq_refl); rewrite Nat.add_0_r; assumption).
    apply wp_bind, wp_bind. apply wp_line.
    { intros B E1. apply HU0. unfold lines_fit. rewrite B. tauto. }
    intros Hl0 t1 Ht1. apply wp_bind.
    eapply wp_on_zone; [apply zone_data_wp; eassumption| |].
    2: { intros s' x' er (k & b & Hk & Ho & Hbe & Hn & E1 & Hm). injection E1 as -> ->.
         exists O, k, z, b. eexists _, _. split; [reflexivity|]. split; [assumption|]. rewrite Nat.add_0_r.
         split; [assumption|]. split; [assumption|]. split; [exact Hbe|]. split; [intros; lia|]. split; [reflexivity|].
         split; [rewrite app_length; cbn [length]; rewrite map_length; lia|]. split; [lia|assumption]. }
    intros s' x' a (vs & te & Hvs & Hfine & E1). injection E1 as -> ->.
    apply wp_bind. apply wp_upd.
    set (g := mkZL z (real_of z) (place (Z.of_nat (length d) + 16 + 20 * Z.of_nat (length (z_data z))) vs) (data_size z) te [] []).
    match goal with |- wp _ _ _ _ (?a, ?b) => change b with (flog e f (done ++ g :: map log0 zs) (t1 ++ [ZONE_LINE])) end.
    apply wp_line.
    { intros B E1. apply HU0. unfold lines_fit. rewrite B, orb_true_r. tauto. }
    intros Hl1 t2 Ht2.
    replace (done ++ g :: map log0 zs) with ((done ++ [g]) ++ map log0 zs) by (rewrite <- app_assoc; reflexivity).
    replace (S (length done)) with (length (done ++ [g])) by (rewrite app_length; cbn; lia).
    assert (Hlen : length (done ++ [g]) = S (length done)) by (rewrite app_length; cbn; lia).
    assert (Hz2 : zcount t2 = S (zcount t)).
    { rewrite Ht2, zcount_app. change (zcount [ZONE_LINE]) with 1%nat. lia. }
    eapply wp_conseq3; [apply IH; try assumption|auto| |].
    + intros j z' Hj Hf. apply (HU (S j) z' Hj). rewrite Hlen in Hf. rewrite <- plus_n_Sm. exact Hf.
    + intros s er (j & k & z' & b & zs' & t' & Hj & Hk & Ho & Hn & Hbe & Hbz & -> & Hz' & Ht' & Hm).
      exists (S j), k, z', (zdata_bytes vs ++ b), zs', t'. rewrite Hlen in Ho, Hz', Hbe, Hbz. rewrite <- plus_n_Sm.
      cbn [nth_error length]. rewrite app_assoc.
      split; [assumption|]. split; [assumption|]. split; [exact Ho|]. split; [assumption|]. split; [exact Hbe|].
      split; [intros [|j'] z1 Hj' Hz1; [cbn in Hz1; injection Hz1 as <-; rewrite Nat.add_0_r; exact Hfine|
              rewrite <- plus_n_Sm; apply (Hbz j' z1); [lia|exact Hz1]]|].
      split; [reflexivity|]. split; [lia|]. split; [lia|assumption].
    + intros s _ (pvs & gs & t' & Hp & Hgs & Ht' & Hl & Hfs & ->).
      exists (vs :: pvs), (g :: gs), t'. split; [constructor; assumption|]. split.
      * cbn [logs_ok]. split; [exists te; reflexivity|]. rewrite app_length, Nat2Z.inj_add in Hgs. assumption.
      * cbn [length]. split; [lia|]. split.
        -- intros [|j] z' Hj; cbn [nth_error] in Hj.
           ++ injection Hj as <-. rewrite Nat.add_0_r. intros B. apply orb_true_iff in B. destruct B; [apply Hl0|apply Hl1]; assumption.
           ++ rewrite <- plus_n_Sm. specialize (Hl j z' Hj). rewrite Hlen in Hl. exact Hl.
        -- split.
           { intros [|j] z' Hj; cbn [nth_error] in Hj.
             - injection Hj as <-. rewrite Nat.add_0_r. exact Hfine.
             - rewrite <- plus_n_Sm. specialize (Hfs j z' Hj). rewrite Hlen in Hfs. exact Hfs. }
           cbn [flat_map]. rewrite <- !app_assoc. reflexivity.
Qed.
