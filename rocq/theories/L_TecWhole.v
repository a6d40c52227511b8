(** write_plt as a whole. *)

From Coq Require Import ZArith Ascii String List Bool Lia.
From Verif Require Import Base M_Bytes M_TecZone M_TecFile Spec_Loop Spec_Tec Spec_Plt
  L_Base L_TecZone L_TecMin L_Plt L_Text L_TecWrite L_TecFile L_TecText.
Import ListNotations.
Open Scope list_scope.
Open Scope Z_scope.

(** ** Lengths *)

Lemma flat_length {A} (w : A -> bytes) (sz : A -> Z) l :
  (forall a, In a l -> Z.of_nat (length (w a)) = sz a) -> Z.of_nat (length (flat_map w l)) = sum (map sz l).
Proof.
  induction l as [|a l IH]; intros H; [reflexivity|]. cbn [flat_map map sum fold_right].
  rewrite app_length, Nat2Z.inj_add, H by (left; reflexivity). fold (sum (map sz l)). rewrite IH; [lia|].
  intros b Hb. apply H. right. assumption.
Qed.
Lemma text_length s : Z.of_nat (length (w_string s)) = text_size s.
Proof. rewrite w_string_length. unfold text_size. lia. Qed.
Lemma pair_length p : Z.of_nat (length (pair_bytes p)) = pair_size p.
Proof. unfold pair_bytes, pair_size. rewrite !app_length, w_int_length, !Nat2Z.inj_add, !text_length. lia. Qed.
Lemma head_length z : zone_fits z -> Z.of_nat (length (w_f32 F299 ++ head_bytes (head_of z))) = head_size z.
Proof.
  intros Hz. destruct (real_of_facts z Hz) as [_ Hl].
  unfold head_bytes, head_of, auxs_bytes, head_size. cbn [h_name h_strand h_time h_size h_aux]. rewrite <- Hl.
  cbn [list3 flat_map].
  repeat (rewrite ?app_length, ?Nat2Z.inj_add, ?w_f64_length, ?w_f32_length, ?w_int_length, ?text_length).
  rewrite (flat_length _ (fun p => 4 + pair_size p)); [cbn [length]; lia|].
  intros p _. rewrite app_length, w_int_length, Nat2Z.inj_add, pair_length. lia.
Qed.

Lemma sum_nonneg {A} (g : A -> Z) l : (forall a, In a l -> 0 <= g a) -> 0 <= sum (map g l).
Proof.
  induction l as [|a l IH]; intros H; cbn [map sum fold_right]; [lia|]. fold (sum (map g l)).
  pose proof (H a (or_introl eq_refl)). assert (0 <= sum (map g l)) by (apply IH; intros; apply H; right; assumption). lia.
Qed.
Lemma sum_ge {A} (g : A -> Z) l a : (forall a, In a l -> 0 <= g a) -> In a l -> g a <= sum (map g l).
Proof.
  induction l as [|b l IH]; intros H [].
  - subst. cbn [map sum fold_right]. fold (sum (map g l)).
    assert (0 <= sum (map g l)) by (apply sum_nonneg; intros; apply H; right; assumption). lia.
  - cbn [map sum fold_right]. fold (sum (map g l)). pose proof (H b (or_introl eq_refl)).
    assert (g a <= sum (map g l)) by (apply IH; [intros; apply H; right; assumption|assumption]). lia.
Qed.
Lemma text_size_pos s : 0 <= text_size s.
Proof. unfold text_size. lia. Qed.
Lemma pair_size_pos p : 0 <= pair_size p.
Proof. unfold pair_size. pose proof (text_size_pos (fst p)). pose proof (text_size_pos (snd p)). lia. Qed.
Lemma head_size_pos z : 0 <= head_size z.
Proof.
  unfold head_size. pose proof (text_size_pos (z_name z)).
  pose proof (sum_nonneg (fun p => 4 + pair_size p) (z_aux z)) as H1. cbv beta in H1.
  assert (0 <= sum (map (fun p => 4 + pair_size p) (z_aux z))) by (apply H1; intros p _; pose proof (pair_size_pos p); lia). lia.
Qed.
Lemma data_size_pos vars z : zone_good vars z -> 0 <= data_size z.
Proof.
  intros (Hz & _ & _ & _ & _ & Hd). unfold data_size. destruct (list3_samples z Hz) as (_ & _ & _ & _ & _ & _ & Hc).
  unfold count in Hc.
  assert (0 <= sum (map (fun d => 20 + product (samples_of z) * width (d_type d)) (z_data z))); [|lia].
  apply sum_nonneg. intros d Hin. rewrite Forall_forall in Hd. destruct (Hd d Hin) as (Ht & _).
  pose proof (width_range _ Ht). nia.
Qed.
Lemma data_size_le f z : Forall (zone_good (f_vars f)) (f_zones f) -> In z (f_zones f) -> data_size z <= plt_size f.
Proof.
  intros Hg Hin. unfold plt_size. rewrite Forall_forall in Hg.
  pose proof (sum_ge data_size (f_zones f) z (fun a Ha => data_size_pos _ a (Hg a Ha)) Hin).
  pose proof (sum_nonneg head_size (f_zones f) (fun a _ => head_size_pos a)).
  pose proof (sum_nonneg text_size (f_vars f) (fun a _ => text_size_pos a)).
  pose proof (text_size_pos (f_title f)).
  assert (0 <= sum (map (fun p => 4 + pair_size p) (f_aux f))) by (apply sum_nonneg; intros p _; pose proof (pair_size_pos p); lia).
  lia.
Qed.

(** ** The file as the reader will see it *)

Definition pzone_of (q : zone * list pvar) : pzone := mkPzone (head_of (fst q)) (snd q).
Definition plt_of (f : tfile) (pvs : list (list pvar)) : plt :=
  mkPlt (f_type f) (f_title f) (f_vars f) (f_aux f) (map pzone_of (combine (f_zones f) pvs)).

Definition all_ok (zs : list zone) (pvs : list (list pvar)) : Prop :=
  Forall2 (fun z vs => Forall2 (var_ok z) (z_data z) vs) zs pvs.

Lemma all_ok_combine zs pvs : all_ok zs pvs ->
  map fst (combine zs pvs) = zs /\ map snd (combine zs pvs) = pvs.
Proof.
  unfold all_ok. induction 1 as [|z vs zs pvs H1 H2 [IH1 IH2]]; [split; reflexivity|]. cbn. rewrite IH1, IH2. split; reflexivity.
Qed.

Lemma plt_of_bytes f pvs : all_ok (f_zones f) pvs ->
  plt_bytes (plt_of f pvs) = head_of_file f ++ w_f32 F357 ++ flat_map zdata_bytes pvs.
Proof.
  intros H. destruct (all_ok_combine _ _ H) as [E1 E2]. unfold plt_bytes, plt_of, head_of_file. cbn [p_type p_title p_vars p_aux p_zones].
  rewrite !flat_map_map. cbn [pzone_of pz_head pz_vars].
  rewrite <- (flat_map_map fst (fun z => w_f32 F299 ++ head_bytes (head_of z))), E1.
  rewrite <- (flat_map_map snd zdata_bytes), E2. rewrite <- !app_assoc. reflexivity.
Qed.

Lemma zdata_lengths f zs pvs : Forall (zone_good (f_vars f)) zs -> all_ok zs pvs ->
  Z.of_nat (length (flat_map zdata_bytes pvs)) = sum (map data_size zs).
Proof.
  intros Hg H. induction H as [|z vs zs pvs H1 H2 IH]; [reflexivity|]. inversion Hg as [|? ? G1 G2]; subst.
  cbn [flat_map map sum fold_right]. fold (sum (map data_size zs)). rewrite app_length, Nat2Z.inj_add, IH by assumption.
  destruct G1 as (Gz & _ & _ & _ & _ & Gd). rewrite (zdata_length z) by assumption. lia.
Qed.

Lemma head_file_length f : Forall zone_fits (f_zones f) ->
  Z.of_nat (length (head_of_file f)) + 4 = plt_size f - sum (map data_size (f_zones f)).
Proof.
  intros Hz. unfold head_of_file, plt_size.
  repeat rewrite app_length. repeat rewrite Nat2Z.inj_add. rewrite text_length, !w_int_length.
  change (length magic) with 8%nat.
  rewrite (flat_length w_string text_size) by (intros; apply text_length).
  rewrite (flat_length (fun z => w_f32 F299 ++ head_bytes (head_of z)) head_size)
    by (intros z Hin; rewrite Forall_forall in Hz; apply head_length, Hz; assumption).
  rewrite (flat_length (fun q => w_f32 F799 ++ pair_bytes q) (fun p => 4 + pair_size p)).
  - lia.
  - intros p _. rewrite app_length, w_f32_length, Nat2Z.inj_add, pair_length. lia.
Qed.

Lemma plt_length f pvs : Forall (zone_good (f_vars f)) (f_zones f) -> all_ok (f_zones f) pvs ->
  Z.of_nat (length (plt_bytes (plt_of f pvs))) = plt_size f.
Proof.
  intros Hg H. rewrite plt_of_bytes by assumption. rewrite !app_length, !Nat2Z.inj_add, w_f32_length, (zdata_lengths f (f_zones f)) by assumption.
  pose proof (head_file_length f) as Hh.
  assert (Forall zone_fits (f_zones f)) by (eapply Forall_impl; [|exact Hg]; intros z G; apply G).
  specialize (Hh H0). lia.
Qed.

Lemma plt_of_shows f pvs : Forall (zone_good (f_vars f)) (f_zones f) -> all_ok (f_zones f) pvs -> shows f (plt_of f pvs).
Proof.
  intros Hg H. unfold shows, plt_of. cbn [p_type p_title p_vars p_aux p_zones]. split; [reflexivity|]. split; [reflexivity|]. split; [reflexivity|]. split; [reflexivity|].
  revert Hg. unfold all_ok in H. generalize (f_vars f). intros vars Hg.
  induction H as [|z vs zs pvs H1 H2 IH]; [constructor|]. inversion Hg as [|? ? G1 G2]; subst. cbn [combine map].
  constructor; [|apply IH; assumption]. unfold shows_zone, pzone_of. cbn [fst snd pz_head pz_vars]. split; [reflexivity|].
  destruct G1 as (_ & _ & _ & _ & _ & Gd). clear - H1 Gd.
  induction H1 as [|d v l vs V1 V2 IH]; [constructor|]. inversion Gd as [|? ? D1 D2]; subst. constructor; [|apply IH; assumption].
  destruct D1 as (_ & _ & mem & Hf). destruct V1 as (A1 & A2 & _ & _ & A5). exists mem.
  assert (Hm : d_mem d = Some mem) by apply Hf. split; [assumption|]. split; [assumption|].
  assert (Hb : blk z d = block_of z (width (d_type d)) mem) by (unfold blk, mem_of; rewrite Hm; reflexivity).
  rewrite A2, <- Hb. split; [reflexivity|]. exact A5.
Qed.

Lemma factors a b c n : 1 <= a -> 1 <= b -> 1 <= c -> a * b * c <= n -> a <= n /\ b <= n /\ c <= n.
Proof.
  intros. assert (a <= a * b) by nia. assert (b <= a * b) by nia. assert (a * b <= a * b * c) by nia.
  assert (1 <= a * b) by nia. assert (c <= (a * b) * c) by nia. lia.
Qed.

Lemma plt_of_good f pvs : file_wf f -> Forall (zone_good (f_vars f)) (f_zones f) -> all_ok (f_zones f) pvs ->
  Forall no_nul (texts_of f) -> good_plt (plt_of f pvs).
Proof.
  intros (Ht & Hv & _ & _) Hg H Hn. unfold texts_of in Hn. rewrite Forall_cons_iff, !Forall_app, !Forall_flat_map in Hn.
  destruct Hn as (N1 & N2 & N3 & N4). unfold good_plt, plt_of. cbn [p_type p_title p_vars p_aux p_zones].
  split; [assumption|]. split; [assumption|]. split; [assumption|]. split; [assumption|].
  assert (Hpair : forall a : aux, Forall (fun p => Forall no_nul [fst p; snd p]) a -> Forall no_nul2 a).
  { intros a. apply Forall_impl. intros p Hp. inversion Hp as [|? ? P1 P2]; subst. inversion P2; subst. split; assumption. }
  split; [apply Hpair; assumption|].
  revert Hg N4. generalize (f_vars f). intros vars Hg N4.
  unfold all_ok in H. induction H as [|z vs zs pvs H1 H2 IH]; [constructor|]. cbn [combine map].
  inversion Hg as [|? ? G1 G2]; subst. inversion N4 as [|? ? M1 M2]; subst. constructor; [|apply IH; assumption].
  destruct G1 as (Gz & Gs & Gt & _ & Gl & Gd). unfold texts_of_zone in M1. rewrite Forall_cons_iff, Forall_flat_map in M1. destruct M1 as [M1 M3].
  unfold good_zone, pzone_of. cbn [fst snd pz_head pz_vars]. split; [|split].
  - unfold good_head, head_of. cbn [h_name h_strand h_time h_size h_aux]. split; [assumption|]. split; [assumption|]. split; [assumption|].
    destruct (list3_samples z Gz) as (r & Er & Hl & Em & _). rewrite <- Hl. split; [reflexivity|].
    split; [|apply Hpair; assumption]. destruct (fits_ints z Gz) as [Hi Hnb]. destruct (gather_size z Hi) as [_ G]. destruct (G Hnb) as (r' & Er' & Hl' & Hp & _).
    rewrite Er in Er'. injection Er' as <-. rewrite Hl. destruct (real_count z Gz) as [Hrc1 Hrc]. pose proof (org_bound z Gz) as Hob.
    rewrite Hl in *. rewrite <- Hl in *. rewrite Em in *. cbn [list3 x0 x1 x2] in *.
    inversion Hp as [|? ? P0 Hp1]; subst. inversion Hp1 as [|? ? P1 Hp2]; subst. inversion Hp2 as [|? ? P2 _]; subst.
    destruct (factors _ _ _ _ P0 P1 P2 ltac:(apply Hrc)) as (F0 & F1 & F2). clear - P0 P1 P2 F0 F1 F2 Hob.
    apply Forall_cons; [|apply Forall_cons; [|apply Forall_cons; [|apply Forall_nil]]]; cbn [x0 x1 x2]; unfold in_int; lia.
  - rewrite <- Gl. clear - H1. induction H1; cbn; auto.
  - cbn [head_of h_size]. clear - H1 Gd Gz. induction H1 as [|d v l vs V1 V2 IH]; [constructor|]. inversion Gd as [|? ? D1 D2]; subst.
    constructor; [|apply IH; assumption]. pose proof (var_len z d v Gz D1 V1) as Hlen. destruct V1 as (A1 & A2 & A3 & A4 & _). destruct D1 as (D1 & _).
    unfold good_var. rewrite A1. split; [unfold in_int; lia|]. split; [assumption|]. split; [assumption|].
    unfold count in Hlen. lia.
Qed.

(** ** Positions in the log *)

Lemma lies_app a b c pos : pos = Z.of_nat (length a) -> lies_at (a ++ b ++ c) pos b.
Proof.
  intros ->. unfold lies_at. rewrite !app_length, Nat2Z.id. split; [lia|]. split; [lia|].
  rewrite skipn_app, skipn_all, Nat.sub_diag. cbn [app skipn]. rewrite firstn_app, firstn_all, Nat.sub_diag. cbn [firstn]. apply app_nil_r.
Qed.

Lemma place_logs vs : forall pos a c, pos = Z.of_nat (length a) ->
  Forall2 (logs_var (a ++ flat_map pv_data vs ++ c)) vs (place pos vs).
Proof.
  induction vs as [|v vs IH]; intros pos a c Hp; [constructor|]. cbn [flat_map place]. constructor.
  - unfold logs_var. cbn [dl_type dl_size dl_min dl_max dl_pt]. rewrite <- app_assoc.
    split; [reflexivity|]. split; [reflexivity|]. split; [reflexivity|]. split; [reflexivity|]. apply lies_app. assumption.
  - specialize (IH (pos + Z.of_nat (length (pv_data v))) (a ++ pv_data v) c).
    rewrite <- !app_assoc in *. apply IH. rewrite app_length. lia.
Qed.

Lemma logs_ok_logs zs pvs gs : forall a c, all_ok zs pvs -> Forall (fun z => length (z_data z) <> O) zs -> Forall zone_fits zs ->
  logs_ok (Z.of_nat (length a)) zs pvs gs ->
  Forall2 (logs_zone (a ++ flat_map zdata_bytes pvs ++ c)) (map pzone_of (combine zs pvs)) gs /\
  map zl_zone gs = zs /\ map zl_size gs = map data_size zs.
Proof.
  revert pvs gs. induction zs as [|z zs IH]; intros pvs gs a c Hok Hne Hz Hl; inversion Hok as [|? vs ? pvs' H1 H2]; subst.
  - destruct gs; [|destruct Hl]. split; [constructor|split; reflexivity].
  - destruct gs as [|g gs]; [destruct Hl|]. cbn [logs_ok] in Hl. destruct Hl as [(t & ->) Hl].
    inversion Hne as [|? ? N1 N2]; subst. inversion Hz as [|? ? Z1 Z2]; subst. cbn [combine map flat_map zl_zone zl_size].
    destruct (IH pvs' gs (a ++ zdata_bytes vs) c H2 N2 Z2) as (I1 & I2 & I3).
    { rewrite app_length, Nat2Z.inj_add. assumption. }
    split; [|rewrite I2, I3; split; reflexivity]. rewrite <- !app_assoc in *. constructor; [|assumption].
    unfold logs_zone, pzone_of. cbn [zl_real zl_data fst snd pz_head pz_vars head_of h_size].
    split; [apply real_of_facts; assumption|].
    unfold zdata_bytes at 1. rewrite !app_assoc. rewrite <- (app_assoc _ (flat_map zdata_bytes pvs') c), <- (app_assoc _ (flat_map pv_data vs)).
    apply place_logs.
    rewrite !app_length, !w_int_length, ?w_f32_length.
    assert (L1 : length (flat_map (fun v => w_int (pv_type v)) vs) = (4 * length (z_data z))%nat /\
      length (flat_map (fun v => w_f64 (pv_min v) ++ w_f64 (pv_max v)) vs) = (16 * length (z_data z))%nat).
    { clear - H1. induction H1 as [|d v l vs V1 V2 [IH1 IH2]]; [split; reflexivity|]. cbn [flat_map length].
      rewrite !app_length, !w_f64_length, !w_int_length. lia. }
    destruct L1 as [L1 L2]. rewrite L1, L2. lia.
Qed.

(** ** The two halves of the limits *)

Lemma sz2i_small n : Z.of_nat n <= INT_MAX -> sz2i (Z.of_nat n) = Z.of_nat n.
Proof. intros H. unfold sz2i, u2i, uwrap. rewrite Z.mod_small by lia. destruct (_ <=? _) eqn:E; zcmp; lia. Qed.

Lemma numbered_iff (P : nat -> string -> Prop) l : forall k0,
  Forall (fun kv => P (fst kv) (snd kv)) (numbered k0 l) <-> (forall k v, nth_error l k = Some v -> P (k0 + k)%nat v).
Proof.
  induction l as [|v l IH]; intros k0; cbn [numbered].
  - split; [intros _ [|k] ? H; discriminate|constructor].
  - rewrite Forall_cons_iff, IH. cbn [fst snd]. split.
    + intros [H1 H2] [|k] w Hw; cbn in Hw; [injection Hw as <-; rewrite Nat.add_0_r; assumption|].
      rewrite <- plus_n_Sm. apply (H2 k w Hw).
    + intros H. split; [rewrite <- (Nat.add_0_r k0); apply (H O); reflexivity|].
      intros k w Hw. specialize (H (S k) w Hw). rewrite <- plus_n_Sm in H. exact H.
Qed.

Lemma zone_line_fits i z : Z.of_nat i + 1 <= INT_MAX ->
  (zone_line i z <> UB <-> len (z_name z) + digits (Z.of_nat i + 1) + 23 < 100).
Proof.
  intros Hi. unfold zone_line.
  assert (E : u2i (uwrap (Z.of_nat i + 1)) = Z.of_nat i + 1).
  { pose proof (sz2i_small (S i)) as H. unfold sz2i in H. rewrite Nat2Z.inj_succ in H. unfold Z.succ in H. apply H. lia. }
  rewrite E. match goal with |- context [sprintf 100 ?x] => destruct (sprintf_cases 100 x) as [[H E2]|[H E2]]; rewrite E2 end;
  rewrite !length_append in H; unfold len, digits; cbn [String.length] in H.
  - split; [intros _; lia|discriminate].
  - split; [congruence|lia].
Qed.

Lemma using_length e : calm e -> (String.length (fmt_lf 5 (e_using e)) <= 27)%nat.
Proof.
  intros [_ H]. pose proof (fmt_lf_length 5 (e_using e) 19) as L. apply L; [lia|].
  intros v Hv. specialize (H v Hv). change (Z.of_nat 20) with 20. 
  assert (2 ^ 64 < 10 ^ 20 - 1) by (vm_compute; reflexivity).
  assert (0 < 2 ^ 1074) by (apply Z.pow_pos_nonneg; lia). revert H H0 H1. generalize (2 ^ 64) (10 ^ 20 - 1) (2 ^ 1074). intros a b c H1 H2 H3. nia.
Qed.

Lemma limits f e l : file_wf f ->
  fl_file l = f -> fl_begin l = e_begin e -> fl_using l = e_using e -> map zl_zone (fl_zones l) = f_zones f ->
  (short f /\ calm e -> texts_fit l /\ forall i z, nth_error (f_zones f) i = Some z -> lines_fit i z) /\
  (texts_fit l -> (forall i z, nth_error (f_zones f) i = Some z -> lines_fit i z) -> short f /\ len (e_begin e) + 14 < 200).
Proof.
  intros (_ & Hv & Hz & _) E1 E2 E3 E4. unfold texts_fit, xml_fits. rewrite E1, E2, E3. cbv zeta.
  assert (Hvars : Forall (fun kv => len (snd kv) + digits (sz2i (Z.of_nat (fst kv))) + 9 < 200) (numbered 0 (f_vars f)) <->
    (forall k v, nth_error (f_vars f) k = Some v -> len v + digits (Z.of_nat k) + 9 < 200)).
  { rewrite (numbered_iff (fun k v => len v + digits (sz2i (Z.of_nat k)) + 9 < 200)). cbn [Nat.add].
    split; intros H k v Hk; specialize (H k v Hk);
    assert ((k < length (f_vars f))%nat) by (apply nth_error_Some; congruence);
    rewrite sz2i_small in *; solve [assumption|lia]. }
  assert (Hzs : Forall (fun g => len (z_name (zl_zone g)) + 22 < 200 /\ Forall short_pair (z_aux (zl_zone g))) (fl_zones l) <->
    (forall i z, nth_error (f_zones f) i = Some z -> len (z_name z) + 22 < 200 /\ Forall short_pair (z_aux z))).
  { rewrite <- (Forall_map zl_zone (fun z => len (z_name z) + 22 < 200 /\ Forall short_pair (z_aux z))), E4. rewrite Forall_forall. split.
    - intros H i z Hi. apply H. apply nth_error_In in Hi. assumption.
    - intros H z Hin. apply In_nth_error in Hin. destruct Hin as [i Hi]. apply (H i z Hi). }
  assert (Hln : forall i z, nth_error (f_zones f) i = Some z -> (zone_line i z <> UB <-> len (z_name z) + digits (Z.of_nat i + 1) + 23 < 100)).
  { intros i z Hi. apply zone_line_fits. assert ((i < length (f_zones f))%nat) by (apply nth_error_Some; congruence). lia. }
  rewrite Hvars, Hzs. unfold short, short_zone, lines_fit. split.
  - intros [(S1 & S2 & S3 & S4 & S5 & S6) C]. pose proof (using_length e C) as Hu. destruct C as [C _].
    split; [split; [|split]|].
    + split; [assumption|]. split; [assumption|]. split; [assumption|]. split; [lia|]. split; [assumption|]. split; [assumption|].
      apply short_pairs in S5. tauto.
    + assumption.
    + intros i z Hi. destruct (S6 i z Hi) as (A & B & _). split; assumption.
    + intros i z Hi B. apply (Hln i z Hi). apply (S6 i z Hi). assumption.
  - intros ((T1 & T2 & T3 & T4 & T5 & T6 & T7) & T8 & T9) L. split; [|assumption].
    split; [assumption|]. split; [assumption|]. split; [assumption|]. split; [assumption|]. split; [assumption|].
    intros i z Hi. destruct (T9 i z Hi) as [A B]. split; [assumption|]. split; [assumption|]. intros C. apply (Hln i z Hi). apply (L i z Hi C).
Qed.

(** ** The run *)

Lemma file_echo_wp U E f bit time (Q : fs * file_log -> unit -> Prop) st g :
  (forall t', zcount t' = zcount (fl_echo g) -> Q (st, fl_set_echo t' g) tt) -> wp U E (file_echo f bit time) Q (st, g).
Proof.
  intros H. unfold file_echo.
  assert (Hl : harmless (file_line f)) by (unfold file_line; apply harmless_app; harm).
  destruct (Z.testbit (f_echo f) bit); [destruct (Z.testbit (f_echo f) 5)|].
  - apply wp_bind, wp_upd. unfold wp, fecho_add. cbn [snd fst fl_set_echo fl_echo]. rewrite add_last_app.
    match goal with |- Q (st, fl_set_echo ?t (fl_set_echo _ g)) tt => change (Q (st, fl_set_echo t g) tt) end.
    apply H. rewrite zcount_app, zcount_one; [lia|]. apply harmless_neq, harmless_app, harmless_app. harm.
  - apply wp_upd. apply H. rewrite zcount_app, zcount_one; [lia|]. apply harmless_neq. assumption.
  - apply wp_ret. specialize (H (fl_echo g) eq_refl). destruct g. exact H.
Qed.

(** A text printed on request. *)
Lemma wp_res_if (U : Prop) E (b : bool) s (Q : fs * file_log -> unit -> Prop) st g :
  harmless s ->
  (b = true -> 100 <= Z.of_nat (String.length s) -> U) ->
  (forall t', zcount t' = zcount (fl_echo g) -> Q (st, fl_set_echo t' g) tt) ->
  wp U E (if b then fecho_res (sprintf 100 s) else ret tt) Q (st, g).
Proof.
  intros Hs HU H. destruct b.
  - unfold fecho_res. apply wp_bind. destruct (sprintf_cases 100 s) as [[L E1]|[L E1]].
    + apply (wp_lift_ok _ _ _ s); [assumption|]. apply wp_upd. apply H. rewrite zcount_app, zcount_one; [lia|]. apply harmless_neq. assumption.
    + unfold wp, lift. rewrite E1. apply HU; [reflexivity|lia].
  - apply wp_ret. specialize (H (fl_echo g) eq_refl). destruct g. exact H.
Qed.

Lemma size_text_length n : 0 <= n < 2 ^ 63 -> (String.length (fmt_fixed 1 n (2 ^ 20)) <= 16)%nat.
Proof.
  intros H. pose proof (fmt_fixed_length 1 n (2 ^ 20) 13) as L. apply L; [lia|lia|].
  assert (2 ^ 63 < (10 ^ Z.of_nat 14 - 1) * 2 ^ 20) by (vm_compute; reflexivity). lia.
Qed.

(** A zone log before its texts are made. *)
Definition bare (z : zone) (g : zone_log) : Prop :=
  zl_zone g = z /\ zl_real g = real_of z /\ zl_json g = [] /\ zl_xml g = [].
Lemma logs_ok_bare zs : forall pvs gs pos, logs_ok pos zs pvs gs -> Forall2 bare zs gs.
Proof.
  induction zs as [|z zs IH]; intros [|vs pvs] [|g gs] pos H; cbn [logs_ok] in H; try contradiction; [constructor|].
  destruct H as [(t & ->) H]. constructor; [repeat split|]. eapply IH. exact H.
Qed.

(** The file was written. *)
Definition written (e : env) (f : tfile) (s : fs) (g : file_log) : Prop :=
  exists pvs, all_ok (f_zones f) pvs /\
    s = mkFs (Some (plt_bytes (plt_of f pvs))) false 0 /\
    Forall2 (logs_zone (plt_bytes (plt_of f pvs))) (p_zones (plt_of f pvs)) (fl_zones g) /\
    map zl_zone (fl_zones g) = f_zones f /\ map zl_size (fl_zones g) = map data_size (f_zones f) /\
    fl_file g = f /\ fl_begin g = e_begin e /\ fl_end g = e_end e /\ fl_using g = e_using e /\
    fl_size g = plt_size f /\ fl_error g = ""%string /\
    zcount (fl_echo g) = length (f_zones f) /\ zcount (fl_json g) = length (f_zones f) /\
    zcount (fl_xml g) = length (f_zones f) /\
    exists gs t, gen_texts (mkFL f gs (e_begin e) (e_end e) (e_using e) (plt_size f) "" t [] []) = Ok g /\ Forall2 bare (f_zones f) gs.

Lemma wp_get {S T} U E (Q : S * T -> T -> Prop) s t : Q (s, t) t -> wp U E get_snd Q (s, t).
Proof. exact (fun H => H). Qed.

Lemma needreal_whole z : zone_fits z -> (needreal (real_of z) = true <-> ~ whole z).
Proof.
  intros Hz. destruct (fits_gather z Hz) as (r & Er & _ & Hs & He). unfold real_of. rewrite Er. unfold needreal, whole.
  rewrite negb_true_iff, andb_false_iff, <- !not_true_iff_false, Hs, He. unfold all_dirs.
  split.
  - intros [H|H] C; apply H; tauto.
  - intros H. destruct (r_noskip r) eqn:E1; [|left; intros C; apply Hs in C; discriminate].
    right. intros C. apply H. assert (D : all_dirs (fun _ s _ _ => s = 1) z) by (apply Hs; reflexivity). unfold all_dirs in D. tauto.
Qed.

Lemma textless_map gs gs' : map textless gs = map textless gs' ->
  map zl_zone gs = map zl_zone gs' /\ map zl_size gs = map zl_size gs' /\ map zl_real gs = map zl_real gs' /\ map zl_data gs = map zl_data gs'.
Proof.
  revert gs'. induction gs as [|g gs IH]; intros [|g' gs'] H; try discriminate; [repeat split|]. cbn [map] in *.
  injection H as H1 H2 H3 H4 H5 H6. destruct (IH gs' H6) as (-> & -> & -> & ->). rewrite H1, H2, H3, H4. repeat split.
Qed.

Lemma logs_textless b ps : forall gs gs', map textless gs = map textless gs' -> Forall2 (logs_zone b) ps gs -> Forall2 (logs_zone b) ps gs'.
Proof.
  induction ps as [|p ps IH]; intros gs gs' E H; inversion H as [|? g ? gs0 H1 H2]; subst; destruct gs' as [|g' gs']; try discriminate; [constructor|].
  cbn [map] in E. injection E as E1 E2 E3 E4 E5 E6. constructor; [|eapply IH; eassumption].
  unfold logs_zone in *. rewrite <- E2, <- E3. assumption.
Qed.

Definition failed_early (f : tfile) (s : fs) (g : file_log) (m : string) : Prop :=
  s = mkFs None false 0 /\ fl_error g = m /\ fl_echo g = [] /\ fl_json g = [] /\ fl_xml g = [].

Lemma write_spec e f : file_wf f -> plt_size f < 2 ^ 63 ->
  match write_plt e f with
  | Undef => ~ refused f /\ e_open e = true /\ ~ (short f /\ calm e)
  | Thr (s, g) x => exists m, x = ETec m /\
      ((refused f /\ failed_early f s g m) \/
       (~ refused f /\ e_open e = false /\ failed_early f s g m) \/
       (~ refused f /\ e_open e = true /\ exists i k b, first_starved e f i k /\
          s = mkFs (Some b) true (Z.of_nat k) /\ fl_error g = ""%string /\ fl_json g = [] /\ fl_xml g = [] /\
          length (fl_zones g) = length (f_zones f) /\ (zcount (fl_echo g) <= length (f_zones f))%nat))
  | Ret (s, g) _ => ~ refused f /\ e_open e = true /\ short f /\ (forall i k, ~ starved e f i k) /\ written e f s g
  end.
Proof.
  intros Hw Hsz. unfold write_plt.
  change (file_log_of e f) with (start_log e f []).
  destruct (refused_dec f Hw) as [Hr|Hr].
  { unfold write_plt_body, bind. destruct (file_pre_bad e f (mkFs None false 0) Hw Hr) as (zs & m & ->).
    exists m. split; [reflexivity|]. left. split; [assumption|]. unfold failed_early. repeat split. }
  destruct (not_refused_good f Hw Hr) as (Hv & Hz & Hg).
  assert (Hfit : Forall zone_fits (f_zones f)) by (eapply Forall_impl; [|exact Hg]; intros z G; apply G).
  unfold write_plt_body. unfold bind at 1. rewrite (file_pre_ok e f _ Hv Hz Hg).
  unfold bind at 1, open_wb at 1, catch_err at 1. destruct (e_open e) eqn:Eo.
  2: { cbn [fst snd what]. eexists. split; [reflexivity|]. right. left. split; [assumption|]. split; [reflexivity|]. unfold failed_early. repeat split. }
  cbn [fst snd live].
  match goal with |- match ?mm ?st with _ => _ end =>
    cut (wp (~ (short f /\ calm e))
      (fun s x => exists m, x = ETec m /\ exists i k b, first_starved e f i k /\
          fst s = mkFs (Some b) true (Z.of_nat k) /\ fl_error (snd s) = ""%string /\ fl_json (snd s) = [] /\ fl_xml (snd s) = [] /\
          length (fl_zones (snd s)) = length (f_zones f) /\ (zcount (fl_echo (snd s)) <= length (f_zones f))%nat)
      mm (fun s _ => short f /\ (forall i k, ~ starved e f i k) /\ written e f (fst s) (snd s)) st) end.
  { unfold wp. match goal with |- match ?m with _ => _ end -> _ => destruct m as [[s g] u|[s g] x|] end; cbn [fst snd].
    - intros (A & B & C). auto.
    - intros (m & -> & H). exists m. split; [reflexivity|]. right. right. auto.
    - intros H. auto. }
  assert (Hst : forall i k, starved e f i k <-> exists z, nth_error (f_zones f) i = Some z /\ needreal (real_of z) = true /\ (k < length (z_data z))%nat /\ e_oom e i k = true).
  { intros i k. unfold starved. split; intros (z & A & B & C); exists z; (split; [assumption|]); (split; [|assumption]);
    apply needreal_whole; try assumption; rewrite Forall_forall in Hfit; apply Hfit; eapply nth_error_In; eassumption. }
  assert (Hlim : forall l, fl_file l = f -> fl_begin l = e_begin e -> fl_using l = e_using e -> map zl_zone (fl_zones l) = f_zones f ->
    (short f /\ calm e -> texts_fit l /\ forall i z, nth_error (f_zones f) i = Some z -> lines_fit i z) /\
    (texts_fit l -> (forall i z, nth_error (f_zones f) i = Some z -> lines_fit i z) -> short f /\ len (e_begin e) + 14 < 200))
    by (intros; apply limits; assumption).
  apply wp_bind, file_echo_wp. intros t1 Ht1.
  change (fl_set_echo t1 (start_log e f (map log0 (f_zones f)))) with (flog e f (map log0 (f_zones f)) t1).
  apply wp_bind, file_head_wp; [assumption|]. intros t2 Ht2. cbn [app].
  apply wp_bind, wp_put. apply wp_bind, wp_fecho_if; [discriminate|]. intros t3 Ht3 _.
  apply wp_bind. unfold file_data. rewrite combine_map.
  eapply wp_conseq3; [apply (file_data_loop (~ (short f /\ calm e)) e f (f_zones f) [])|auto| |].
  - assumption.
  - apply Forall_forall. intros z Hin. pose proof (data_size_le f z Hg Hin). lia.
  - intros j z Hj Hn [C1 C2]. apply Hn. cbn [length Nat.add].
    destruct (Hlim (mkFL f (map log0 (f_zones f)) (e_begin e) "" (e_using e) 0 "" [] [] [])) as [H _]; try reflexivity.
    { cbn. rewrite map_map. apply map_id. }
    apply H; [split; assumption|assumption].
  - intros s x (j & k & z & b & zs' & t' & Hj & Hk & Ho & Hn & Hb & Hbz & -> & Hl & Hc & m & ->). cbn [fst snd].
    exists m. split; [reflexivity|]. exists j, k. eexists. split; [|split; [reflexivity|]].
    + split; [apply Hst; exists z; tauto|]. intros i' k' Hs'. apply Hst in Hs'. destruct Hs' as (z' & A & B & C & D).
      destruct (lt_eq_lt_dec i' j) as [[L| ->]|L]; [|right; split; [reflexivity|]|left; assumption].
      * specialize (Hbz i' z' L A B k' C). cbn in Hbz. congruence.
      * destruct (le_lt_dec k k') as [L|L]; [assumption|]. specialize (Hb k' L). cbn in Hb. congruence.
    + cbn [flog fl_error fl_json fl_xml fl_zones fl_echo]. split; [reflexivity|]. split; [reflexivity|]. split; [reflexivity|].
      split; [assumption|]. cbn [length Nat.add] in Hc.
      assert (zcount t3 = O) by (rewrite Ht3, Ht2, Ht1; reflexivity). lia.
  - intros s _ (pvs & gs & t' & Hok & Hlog & Hc & Hlf & Hfine & ->). cbn [app length Nat.add] in *.
    assert (Hc' : zcount t' = length (f_zones f)).
    { assert (zcount t3 = O) by (rewrite Ht3, Ht2, Ht1; reflexivity). lia. }
    assert (Hbytes : (head_of_file f ++ w_f32 F357) ++ flat_map zdata_bytes pvs = plt_bytes (plt_of f pvs))
      by (rewrite plt_of_bytes, <- app_assoc by assumption; reflexivity).
    rewrite Hbytes.
    destruct (logs_ok_logs (f_zones f) pvs gs (head_of_file f ++ w_f32 F357) [] Hok) as (L1 & L2 & L3).
    { eapply Forall_impl; [|exact Hg]. intros z (_ & _ & _ & N & _) C. destruct (z_data z); [congruence|discriminate]. }
    { assumption. }
    { assumption. }
    rewrite app_nil_r, Hbytes in L1.
    assert (Hps : plt_size f >= 0) by (rewrite <- (plt_length f pvs) by assumption; lia).
    apply wp_bind, wp_tell. rewrite plt_length by assumption. apply wp_bind, wp_upd.
    apply wp_bind, wp_res_if.
    { apply harmless_app. harm. }
    { intros _ Hn. exfalso. rewrite !length_append in Hn. pose proof (size_text_length (plt_size f) ltac:(lia)). cbn [String.length] in Hn. lia. }
    intros t4 Ht4. apply wp_bind. unfold wp at 1, close. cbn [fst snd disk opened live].
    apply wp_bind, wp_upd. apply wp_bind, wp_res_if.
    { apply harmless_app. harm. }
    { intros _ Hn [C1 C2]. rewrite !length_append in Hn. pose proof (using_length e C2). cbn [String.length] in Hn. lia. }
    intros t5 Ht5. apply wp_bind, wp_upd. apply wp_bind, file_echo_wp. intros t6 Ht6.
    cbn [fl_echo fl_set_end fl_set_echo fl_set_using fl_set_size flog] in Ht4, Ht5, Ht6.
    unfold fl_set_end, fl_set_echo, fl_set_using, fl_set_size, flog. cbn [fl_file fl_zones fl_begin fl_end fl_using fl_size fl_error fl_echo fl_json fl_xml].
    apply wp_bind, wp_get, wp_bind.
    set (l := mkFL f gs (e_begin e) (e_end e) (e_using e) (plt_size f) "" t6 [] []).
    destruct (Hlim l) as [Lm1 Lm2]; try reflexivity; [assumption|].
    destruct (gen_texts_cases l) as [(T & j & x & gs' & Eg & Et & Ej & Ex)|[T Eg]].
    + apply (wp_lift_ok _ _ _ _ _ _ Eg). unfold wp, upd_snd. cbn [fst snd].
      split; [apply Lm2; assumption|]. split.
      { intros i k Hs'. apply Hst in Hs'. destruct Hs' as (z & A & B & C & D). rewrite (Hfine i z A B k C) in D. discriminate. }
      assert (Hlen : length gs = length (f_zones f)) by (rewrite <- L2, map_length; reflexivity).
      exists pvs. split; [assumption|]. split; [reflexivity|].
      unfold fl_set_text, fl_set_zones, l in *. cbn [fl_file fl_zones fl_begin fl_end fl_using fl_size fl_error fl_echo fl_json fl_xml app] in *.
      destruct (textless_map _ _ Et) as (M1 & M2 & _ & _).
      split; [eapply logs_textless; [symmetry; exact Et|]; exact L1|].
      split; [congruence|]. split; [congruence|]. repeat (split; [reflexivity|]).
      split; [congruence|]. split; [congruence|]. split; [congruence|].
      exists gs, t6. split; [exact Eg|]. eapply logs_ok_bare. exact Hlog.
    + unfold wp, lift. rewrite Eg. intros C. apply T. apply Lm1. assumption.
Qed.
