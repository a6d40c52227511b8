(** The reader of Spec_Plt.v inverts the layout the library writes. *)

From Coq Require Import ZArith Ascii String List Bool Lia.
From Verif Require Import Base M_Bytes M_TecZone M_TecFile Spec_Loop Spec_Tec Spec_Plt L_Base L_TecZone L_TecMin.
Import ListNotations.
Open Scope list_scope.
Open Scope Z_scope.

(** ** Bytes and integers *)

Lemma b2z_z2b z : 0 <= z < 256 -> b2z (z2b z) = z.
Proof. intros H. unfold b2z, z2b. rewrite N_ascii_embedding by lia. lia. Qed.
Lemma z2b_b2z c : z2b (b2z c) = c.
Proof. unfold b2z, z2b. rewrite N2Z.id. apply ascii_N_embedding. Qed.

Lemma le_length n : forall z, length (le n z) = n.
Proof. induction n as [|n IH]; intros z; cbn [le length]; [reflexivity|]. rewrite IH. reflexivity. Qed.
Lemma unle_le n : forall z, unle (le n z) = z mod 256 ^ Z.of_nat n.
Proof.
  induction n as [|n IH]; intros z; cbn [le unle].
  - rewrite Z.mod_1_r. reflexivity.
  - rewrite b2z_z2b by (apply Z.mod_pos_bound; lia). rewrite IH, Nat2Z.inj_succ, Z.pow_succ_r by lia.
    rewrite Z.rem_mul_r by (try apply Z.pow_nonzero; try apply Z.pow_pos_nonneg; lia). reflexivity.
Qed.
Lemma signed_mod n z : 0 < n -> - 2 ^ (n - 1) <= z < 2 ^ (n - 1) -> signed n (z mod 2 ^ n) = z.
Proof.
  intros Hn Hz. assert (E : 2 ^ n = 2 * 2 ^ (n - 1)) by (rewrite <- Z.pow_succ_r by lia; f_equal; lia).
  unfold signed. destruct (Z_lt_dec z 0) as [H|H].
  - assert (Em : z mod 2 ^ n = z + 2 ^ n).
    { rewrite <- (Z.mod_add z 1) by (apply Z.pow_nonzero; lia). rewrite Z.mul_1_l. apply Z.mod_small. lia. }
    rewrite Em. destruct (_ <? _) eqn:F; zcmp; lia.
  - rewrite Z.mod_small by lia. destruct (_ <? _) eqn:F; zcmp; lia.
Qed.
Lemma char_val_mod c : char_val c mod 256 = b2z c.
Proof.
  unfold char_val, signed. pose proof (b2z_range c). change (2 ^ (8 - 1)) with 128. change (2 ^ 8) with 256.
  destruct (_ <? _); [apply Z.mod_small; lia|].
  rewrite <- (Z.mod_add _ 1) by lia. rewrite Z.mod_small; lia.
Qed.
Lemma char_val_range c : -128 <= char_val c <= 127.
Proof.
  unfold char_val, signed. pose proof (b2z_range c). change (2 ^ (8 - 1)) with 128. change (2 ^ 8) with 256.
  destruct (_ <? _) eqn:E; zcmp; lia.
Qed.
Lemma char_val_0 c : char_val c = 0 -> c = ascii_of_nat 0.
Proof.
  intros H. pose proof (char_val_mod c) as M. rewrite H in M. rewrite <- (z2b_b2z c), <- M. reflexivity.
Qed.

(** ** Readers on what was written *)

Lemma take_app n (l r : bytes) : length l = n -> take n (l ++ r) = Some (l, r).
Proof.
  intros <-. unfold take. rewrite app_length.
  replace (length l <=? length l + length r)%nat with true by (symmetry; apply Nat.leb_le; lia).
  rewrite firstn_app, skipn_app, Nat.sub_diag, firstn_all, skipn_all, firstn_O, app_nil_r. reflexivity.
Qed.
Lemma get_int_w z r : in_int z -> get_int (w_int z ++ r) = Some (z, r).
Proof.
  intros H. unfold get_int, and_then, w_int. rewrite take_app by apply le_length. unfold found.
  rewrite unle_le. change (256 ^ Z.of_nat 4) with (2 ^ 32). rewrite signed_mod; [reflexivity|lia|].
  unfold in_int in H. change (2 ^ (32 - 1)) with 2147483648. lia.
Qed.
Lemma expect_w z r : in_int z -> expect z (w_int z ++ r) = Some (tt, r).
Proof. intros H. unfold expect, and_then. rewrite get_int_w, Z.eqb_refl by assumption. reflexivity. Qed.
Lemma get_dbl_w z r : 0 <= z < 2 ^ 64 -> get_dbl (w_f64 z ++ r) = Some (z, r).
Proof.
  intros H. unfold get_dbl, and_then, w_f64. rewrite take_app by apply le_length. unfold found.
  rewrite unle_le. change (256 ^ Z.of_nat 8) with (2 ^ 64). rewrite Z.mod_small by assumption. reflexivity.
Qed.
Lemma get_mark_w z r : 0 <= z < 2 ^ 32 -> get_mark (w_f32 z ++ r) = Some (num32 z, r).
Proof.
  intros H. unfold get_mark, and_then, w_f32. rewrite take_app by apply le_length. unfold found.
  rewrite unle_le. change (256 ^ Z.of_nat 4) with (2 ^ 32). rewrite Z.mod_small by assumption. reflexivity.
Qed.

Lemma w_int_length z : length (w_int z) = 4%nat.
Proof. apply le_length. Qed.
Lemma w_f32_length z : length (w_f32 z) = 4%nat.
Proof. apply le_length. Qed.
Lemma w_f64_length z : length (w_f64 z) = 8%nat.
Proof. apply le_length. Qed.

Lemma w_string_cons c s : w_string (String c s) = w_int (char_val c) ++ w_string s.
Proof. unfold w_string. cbn [list_ascii_of_string flat_map]. rewrite <- app_assoc. reflexivity. Qed.
Lemma w_string_length s : length (w_string s) = (4 * String.length s + 4)%nat.
Proof.
  induction s as [|c s IH]; [reflexivity|].
  rewrite w_string_cons, app_length, w_int_length, IH. cbn [String.length]. lia.
Qed.

Lemma get_chars_w s : forall fuel r, no_nul s -> (String.length s < fuel)%nat ->
  get_chars fuel (w_string s ++ r) = Some (s, r).
Proof.
  induction s as [|c s IH]; intros fuel r Hn Hf; destruct fuel as [|fuel]; cbn [String.length] in Hf; try lia; cbn [get_chars].
  - change (w_string "" ++ r) with (w_int 0 ++ r). unfold and_then. rewrite get_int_w by (unfold in_int; lia). reflexivity.
  - rewrite w_string_cons, <- app_assoc. unfold and_then. pose proof (char_val_range c).
    rewrite get_int_w by (unfold in_int; lia).
    destruct (char_val c =? 0) eqn:E; zcmp.
    + exfalso. apply Hn. left. apply char_val_0. assumption.
    + rewrite IH by (try lia; intros Hi; apply Hn; right; assumption).
      rewrite char_val_mod, z2b_b2z. reflexivity.
Qed.
Lemma get_text_w s r : no_nul s -> get_text (w_string s ++ r) = Some (s, r).
Proof.
  intros H. unfold get_text. apply get_chars_w; [assumption|].
  rewrite app_length, w_string_length. lia.
Qed.

Lemma times_w {A} (rd : reader A) (wr : A -> bytes) l : forall r,
  Forall (fun a => forall r, rd (wr a ++ r) = Some (a, r)) l ->
  times (length l) rd (flat_map wr l ++ r) = Some (l, r).
Proof.
  induction l as [|a l IH]; intros r H; [reflexivity|]. inversion H; subst.
  cbn [length times flat_map]. rewrite <- app_assoc. unfold and_then at 1. rewrite H2.
  unfold and_then. rewrite IH by assumption. reflexivity.
Qed.

(** ** The layout *)

Definition pair_bytes (p : string * string) : bytes := w_string (fst p) ++ w_int 0 ++ w_string (snd p).
Definition auxs_bytes (a : aux) : bytes := flat_map (fun p => w_int 1 ++ pair_bytes p) a ++ w_int 0.
Definition no_nul2 (p : string * string) : Prop := no_nul (fst p) /\ no_nul (snd p).
Definition head_bytes (h : head) : bytes :=
  w_string (h_name h) ++ w_int (-1) ++ w_int (h_strand h) ++ w_f64 (h_time h)
  ++ w_int (-1) ++ w_int 0 ++ w_int 0 ++ w_int 0 ++ w_int 0
  ++ flat_map w_int (h_size h) ++ auxs_bytes (h_aux h).
Definition good_head (h : head) : Prop :=
  no_nul (h_name h) /\ in_int (h_strand h) /\ 0 <= h_time h < 2 ^ 64 /\
  length (h_size h) = 3%nat /\ Forall in_int (h_size h) /\ Forall no_nul2 (h_aux h).
Definition zdata_bytes (vs : list pvar) : bytes :=
  w_f32 F299 ++ flat_map (fun v => w_int (pv_type v)) vs ++ w_int 0 ++ w_int 0 ++ w_int (-1)
  ++ flat_map (fun v => w_f64 (pv_min v) ++ w_f64 (pv_max v)) vs ++ flat_map pv_data vs.
Definition good_var (n : Z) (v : pvar) : Prop :=
  in_int (pv_type v) /\ 0 <= pv_min v < 2 ^ 64 /\ 0 <= pv_max v < 2 ^ 64 /\
  length (pv_data v) = Z.to_nat (n * width (pv_type v)).
Definition good_zone (nvar : nat) (z : pzone) : Prop :=
  good_head (pz_head z) /\ length (pz_vars z) = nvar /\
  Forall (good_var (product (h_size (pz_head z)))) (pz_vars z).
Definition plt_bytes (p : plt) : bytes :=
  magic ++ w_int 1 ++ w_int (p_type p) ++ w_string (p_title p) ++ w_int (Z.of_nat (length (p_vars p)))
  ++ flat_map w_string (p_vars p)
  ++ flat_map (fun z => w_f32 F299 ++ head_bytes (pz_head z)) (p_zones p)
  ++ flat_map (fun q => w_f32 F799 ++ pair_bytes q) (p_aux p)
  ++ w_f32 F357
  ++ flat_map (fun z => zdata_bytes (pz_vars z)) (p_zones p).
Definition good_plt (p : plt) : Prop :=
  in_int (p_type p) /\ no_nul (p_title p) /\ Z.of_nat (length (p_vars p)) <= INT_MAX /\ Forall no_nul (p_vars p) /\
  Forall no_nul2 (p_aux p) /\ Forall (good_zone (length (p_vars p))) (p_zones p).

Ltac rd := unfold and_then at 1.

Lemma get_aux_w p r : no_nul2 p -> get_aux (pair_bytes p ++ r) = Some (p, r).
Proof.
  intros [H1 H2]. unfold get_aux, pair_bytes. rewrite <- !app_assoc. rd. rewrite get_text_w by assumption.
  rd. rewrite expect_w by (unfold in_int; lia). rd. rewrite get_text_w by assumption. destruct p. reflexivity.
Qed.

Lemma get_auxs_w a : forall fuel r, Forall no_nul2 a -> (length a < fuel)%nat ->
  get_auxs fuel (auxs_bytes a ++ r) = Some (a, r).
Proof.
  unfold auxs_bytes. induction a as [|p a IH]; intros fuel r H Hf; destruct fuel as [|fuel]; cbn [length] in Hf; try lia; cbn [get_auxs flat_map].
  - cbn [app]. rd. rewrite get_int_w by (unfold in_int; lia). reflexivity.
  - inversion H; subst. rewrite <- !app_assoc. rd. rewrite get_int_w by (unfold in_int; lia). cbn [Z.eqb Pos.eqb].
    rd. rewrite get_aux_w by assumption. rd. rewrite app_assoc. rewrite IH by (try assumption; lia). reflexivity.
Qed.

Lemma auxs_length a : (length a < length (auxs_bytes a))%nat.
Proof.
  unfold auxs_bytes. rewrite app_length, w_int_length.
  induction a as [|p a IH]; cbn [flat_map length]; [lia|]. rewrite !app_length, w_int_length. lia.
Qed.

Lemma get_head_w h r : good_head h -> get_head (head_bytes h ++ r) = Some (h, r).
Proof.
  intros (H1 & H2 & H3 & H4 & H5 & H6). unfold get_head, head_bytes. rewrite <- !app_assoc.
  rd. rewrite get_text_w by assumption. rd. rewrite expect_w by (unfold in_int; lia).
  rd. rewrite get_int_w by assumption. rd. rewrite get_dbl_w by assumption.
  rd. rewrite expect_w by (unfold in_int; lia). do 4 (rd; rewrite expect_w by (unfold in_int; lia)).
  rd. rewrite <- H4 at 1. rewrite times_w.
  - rd. rewrite get_auxs_w; [destruct h; reflexivity|assumption|]. rewrite app_length. pose proof (auxs_length (h_aux h)). lia.
  - eapply Forall_impl; [|exact H5]. intros a Ha r'. apply get_int_w. assumption.
Qed.

Lemma mark357 : num32 F357 = Fin (357 * 2 ^ 149). Proof. vm_compute. reflexivity. Qed.
Lemma mark299 : num32 F299 = Fin (299 * 2 ^ 149). Proof. vm_compute. reflexivity. Qed.
Lemma mark799 : num32 F799 = Fin (799 * 2 ^ 149). Proof. vm_compute. reflexivity. Qed.
Lemma F_range x : x = F299 \/ x = F357 \/ x = F799 -> 0 <= x < 2 ^ 32.
Proof. intros [->|[->| ->]]; vm_compute; intuition congruence. Qed.
Lemma is_mark_eq a b : is_mark a (Fin (b * 2 ^ 149)) = (b =? a).
Proof.
  unfold is_mark. destruct (b =? a) eqn:E; zcmp; [subst; apply Z.eqb_refl|].
  apply Z.eqb_neq. intros H. apply Z.mul_reg_r in H; [contradiction|]. apply Z.pow_nonzero; lia.
Qed.

Lemma get_sections_aux a : forall fuel r, Forall no_nul2 a -> (length a < fuel)%nat ->
  get_sections fuel (flat_map (fun q => w_f32 F799 ++ pair_bytes q) a ++ w_f32 F357 ++ r) = Some (([], a), r).
Proof.
  induction a as [|p a IH]; intros fuel r H Hf; destruct fuel as [|fuel]; cbn [length] in Hf; try lia; cbn [get_sections flat_map app].
  - rd. rewrite get_mark_w by (apply F_range; auto). rewrite mark357, is_mark_eq. reflexivity.
  - inversion H; subst. rewrite <- !app_assoc. rd. rewrite get_mark_w by (apply F_range; auto).
    rewrite mark799, !is_mark_eq. cbn [Z.eqb Pos.eqb]. rd. rewrite get_aux_w by assumption.
    rd. rewrite IH by (try assumption; lia). reflexivity.
Qed.
Lemma get_sections_w (zs : list pzone) a : forall fuel r,
  Forall (fun z => good_head (pz_head z)) zs -> Forall no_nul2 a -> (length zs + length a < fuel)%nat ->
  get_sections fuel (flat_map (fun z => w_f32 F299 ++ head_bytes (pz_head z)) zs
    ++ flat_map (fun q => w_f32 F799 ++ pair_bytes q) a ++ w_f32 F357 ++ r) = Some ((map pz_head zs, a), r).
Proof.
  induction zs as [|z zs IH]; intros fuel r Hz Ha Hf.
  - cbn [flat_map app map]. apply get_sections_aux; [assumption|]. cbn [length] in Hf. lia.
  - destruct fuel as [|fuel]; cbn [length] in Hf; try lia. cbn [get_sections flat_map map].
    inversion Hz; subst. rewrite <- !app_assoc. rd. rewrite get_mark_w by (apply F_range; auto).
    rewrite mark299, !is_mark_eq. cbn [Z.eqb Pos.eqb]. rd. rewrite get_head_w by assumption.
    rd. rewrite IH by (try assumption; lia). reflexivity.
Qed.

Lemma get_blocks_w n vs : forall r, Forall (good_var n) vs ->
  get_blocks n (map pv_type vs) (map (fun v => (pv_min v, pv_max v)) vs) (flat_map pv_data vs ++ r) = Some (vs, r).
Proof.
  induction vs as [|v vs IH]; intros r H; [reflexivity|]. inversion H as [|? ? (H1 & H2 & H3 & H4) H5]; subst.
  cbn [map get_blocks flat_map]. rewrite <- app_assoc. rd. rewrite take_app by assumption.
  rd. rewrite IH by assumption. destruct v. reflexivity.
Qed.
Lemma flat_map_map {A B C} (f : A -> B) (g : B -> list C) l : flat_map g (map f l) = flat_map (fun x => g (f x)) l.
Proof. induction l as [|a l IH]; cbn; [reflexivity|]. rewrite IH. reflexivity. Qed.
Lemma get_data_w nvar z r : good_zone nvar z ->
  get_data nvar (pz_head z) (zdata_bytes (pz_vars z) ++ r) = Some (pz_vars z, r).
Proof.
  intros (_ & Hl & Hv). unfold get_data, zdata_bytes. rewrite <- !app_assoc.
  rd. rewrite get_mark_w by (apply F_range; auto). rewrite mark299, is_mark_eq. cbn [Z.eqb Pos.eqb].
  rd. rewrite <- (flat_map_map pv_type w_int). rewrite <- Hl, <- (map_length pv_type), times_w.
  2: { apply Forall_map. eapply Forall_impl; [|exact Hv]. intros v Hgv r'. apply get_int_w. apply Hgv. }
  rd. rewrite expect_w by (unfold in_int; lia). rd. rewrite expect_w by (unfold in_int; lia).
  rd. rewrite expect_w by (unfold in_int; lia).
  rd. rewrite <- (flat_map_map (fun v => (pv_min v, pv_max v)) (fun p => w_f64 (fst p) ++ w_f64 (snd p))).
  rewrite map_length, <- (map_length (fun v => (pv_min v, pv_max v))), times_w.
  2: { apply Forall_map. eapply Forall_impl; [|exact Hv]. intros v Hgv r'. cbn [fst snd]. rewrite <- app_assoc.
       rd. rewrite get_dbl_w by apply Hgv. rd. rewrite get_dbl_w by apply Hgv. reflexivity. }
  apply get_blocks_w. assumption.
Qed.
Lemma get_zones_w nvar zs : forall r, Forall (good_zone nvar) zs ->
  get_zones nvar (map pz_head zs) (flat_map (fun z => zdata_bytes (pz_vars z)) zs ++ r) = Some (zs, r).
Proof.
  induction zs as [|z zs IH]; intros r H; [reflexivity|]. inversion H; subst.
  cbn [map get_zones flat_map]. rewrite <- app_assoc. rd. rewrite get_data_w by assumption.
  rd. rewrite IH by assumption. destruct z. reflexivity.
Qed.

Lemma sections_length (zs : list pzone) a r :
  (length zs + length a < length (flat_map (fun z => w_f32 F299 ++ head_bytes (pz_head z)) zs
    ++ flat_map (fun q => w_f32 F799 ++ pair_bytes q) a ++ w_f32 F357 ++ r))%nat.
Proof.
  rewrite !app_length, w_f32_length.
  assert (H1 : forall zs : list pzone, (length zs <= length (flat_map (fun z => w_f32 F299 ++ head_bytes (pz_head z)) zs))%nat).
  { clear. induction zs as [|z zs IH]; cbn [flat_map length]; [lia|]. rewrite !app_length, w_f32_length. lia. }
  assert (H2 : (length a <= length (flat_map (fun q => w_f32 F799 ++ pair_bytes q) a))%nat).
  { clear. induction a as [|z zs IH]; cbn [flat_map length]; [lia|]. rewrite !app_length, w_f32_length. lia. }
  specialize (H1 zs). lia.
Qed.

Lemma parse_w p : good_plt p -> parse_plt (plt_bytes p) = Some p.
Proof.
  intros (H1 & H2 & H3 & H4 & H5 & H6). unfold parse_plt, get_file, plt_bytes.
  rd. rewrite take_app by reflexivity. destruct (list_eq_dec _ _ _) as [_|C]; [|exfalso; apply C; reflexivity].
  rd. rewrite expect_w by (unfold in_int; lia). rd. rewrite get_int_w by assumption.
  rd. rewrite get_text_w by assumption. rd. rewrite get_int_w by (unfold in_int; lia). rewrite Nat2Z.id.
  rd. rewrite times_w.
  2: { eapply Forall_impl; [|exact H4]. intros s Hs r. apply get_text_w. assumption. }
  rd. rewrite get_sections_w; [|eapply Forall_impl; [|exact H6]; intros z Hz; apply Hz|assumption|apply sections_length].
  rd. rewrite <- (app_nil_r (flat_map _ (p_zones p))), get_zones_w by assumption.
  destruct p. reflexivity.
Qed.
