(** read_plt on one array. *)

From Coq Require Import ZArith Ascii String List Bool Lia.
From Verif Require Import Base M_Flags M_Loop M_RS1 M_RS2 M_RS3 M_Bytes M_TecZone M_TecFile Spec_Tec Spec_Plt
  M_Heap M_PD1 M_PD2 M_PD3 M_World M_Read
  Spec Spec_Loop Spec_Array Spec_Hist Spec_Reach Spec_Read
  L_Base L_RS L_Range L_Loop L_Heap L_Lin L_Rep L_PD1 L_PD2 L_PD3 L_Kind L_Copy L_World.
Import ListNotations.
Open Scope Z_scope.

(** ** Sizes *)

Lemma product_cons x l : product (x :: l) = x * product l.
Proof. reflexivity. Qed.

Lemma size_in_bad g s : shape_ok g -> in_int s ->
  bad_size (i2u s) (snd (fst g)) = false <-> size_in g s.
Proof.
  destruct g as [[n i] p]. unfold shape_ok, bad_size, size_in, i2u, uwrap, in_int. cbn [fst snd]. intros H Hs.
  rewrite (Z.mod_small i) by lia. destruct (Z.ltb_spec s 0).
  - replace (s mod UINT_MOD) with (s + UINT_MOD) by (rewrite <- (Z.mod_add s 1 UINT_MOD) by lia; symmetry; apply Z.mod_small; lia).
    destruct (Z.ltb_spec i (s + UINT_MOD)); cbn [orb]; split; try discriminate; try lia.
  - rewrite Z.mod_small by lia. destruct (Z.ltb_spec i s); destruct (Z.eqb_spec s 0); cbn [orb]; split; intros; try discriminate; try reflexivity; lia.
Qed.

Lemma size_i2u g s : shape_ok g -> size_in g s -> i2u s = s.
Proof.
  destruct g as [[n i] p]. unfold shape_ok, size_in, i2u, uwrap. intros H Hs. apply Z.mod_small. lia.
Qed.

(** The low corner is inside, and its volume is bounded by that of the array. *)
Lemma corner_in ls gs ss q :
  Forall shape_ok gs -> length gs = length ls -> Forall2 size_in gs ss -> in_box (corner ss) q -> in_box (slot_box gs ls) q.
Proof.
  intros H HL HF. revert ls q H HL. induction HF as [|g s gs ss Hs HF IH]; intros [|l ls] q H HL Hq; try discriminate.
  - exact Hq.
  - inversion H as [|? ? H1 H2]; subst. injection HL as HL. cbn [corner map] in Hq. apply in_box_cons in Hq.
    destruct Hq as (x & q' & -> & Hx & Hq). unfold slot_box. cbn [combine map]. apply in_box_cons.
    exists x, q'. split; [reflexivity|]. split; [|now apply IH].
    destruct g as [[n i] p]. unfold shape_ok, size_in in *. cbn [slots fst snd] in *. pose proof (loc_val_range l). lia.
Qed.

Lemma corner_vol ls gs ss :
  Forall shape_ok gs -> length gs = length ls -> Forall2 size_in gs ss -> 0 < product ss <= vol (slot_box gs ls).
Proof.
  intros H HL HF. revert ls H HL. induction HF as [|g s gs ss Hs HF IH]; intros [|l ls] H HL; try discriminate.
  - cbn. lia.
  - inversion H as [|? ? H1 H2]; subst. injection HL as HL. specialize (IH ls H2 HL).
    unfold slot_box in *. cbn [combine map]. rewrite product_cons, vol_cons.
    destruct g as [[n i] p]. unfold shape_ok, size_in in *. cbn [slots fst snd] in *. pose proof (loc_val_range l).
    clear - IH Hs H1 H0. set (P := product ss) in *. set (W := vol _) in *. clearbody P W. nia.
Qed.

Lemma rank_range ss q : in_box (corner ss) q -> 0 <= rank ss q < product ss.
Proof.
  revert q. induction ss as [|s ss IH]; intros q Hq.
  - inversion Hq; subst. cbn. lia.
  - cbn [corner map] in Hq. apply in_box_cons in Hq. destruct Hq as (x & q' & -> & Hx & Hq). cbn [fst snd] in Hx.
    specialize (IH q' Hq). cbn [rank]. rewrite product_cons. set (P := product ss) in *. clearbody P. nia.
Qed.

(** ** Names *)

Lemma find_var_le vars name : (find_var vars name <= length vars)%nat.
Proof. induction vars as [|v vars IH]; cbn [find_var length]; [lia|]. destruct (String.eqb v name); lia. Qed.

Lemma find_var_first vars name : (find_var vars name < length vars)%nat -> first_at vars name (find_var vars name).
Proof.
  induction vars as [|v vars IH]; cbn [find_var length]; [lia|].
  destruct (String.eqb_spec v name) as [->|N]; intros H.
  - split; [reflexivity|]. intros i Hi. lia.
  - destruct IH as [H1 H2]; [lia|]. split; [exact H1|]. intros [|i] Hi; cbn [nth_error]; [congruence|]. apply H2. lia.
Qed.

Lemma find_var_none vars name : find_var vars name = length vars <-> ~ In name vars.
Proof.
  induction vars as [|v vars IH]; cbn [find_var length In]; [tauto|].
  destruct (String.eqb_spec v name) as [->|N].
  - split; [discriminate|tauto].
  - split; intros H; [intros [X|X]; [congruence|]; apply IH in X; [assumption|congruence]|].
    f_equal. apply IH. tauto.
Qed.

Lemma first_at_find vars name vv : first_at vars name vv -> vv = find_var vars name.
Proof.
  intros [H1 H2].
  assert (L : (find_var vars name < length vars)%nat).
  { pose proof (find_var_le vars name). destruct (Nat.eq_dec (find_var vars name) (length vars)) as [E|E]; [|lia].
    apply find_var_none in E. destruct E. eapply nth_error_In; eassumption. }
  destruct (find_var_first _ _ L) as [H3 H4].
  destruct (Nat.lt_trichotomy vv (find_var vars name)) as [L'|[E|L']]; [|assumption|].
  - destruct (H4 _ L' H1).
  - destruct (H2 _ L' H3).
Qed.

Section Read.
Context {V : Type}.
Variables (chk : bool) (of_float of_double : bytes -> option V).
Implicit Types (w : world V) (aw : aworld V) (m : mem V).

(** ** The loops *)

Lemma uadd_small a b : 0 <= a + b < UINT_MOD -> uadd a b = a + b.
Proof. intros. apply Z.mod_small. assumption. Qed.
Lemma umul_small a b : 0 <= a * b < UINT_MOD -> umul a b = a * b.
Proof. intros. apply Z.mod_small. assumption. Qed.

Lemma loop1 (n0 : Z) (f : Z -> res V -> M (mem V) unit) temp m :
  0 < n0 < UINT_MOD ->
  for_uint 0 n0 (fun ii => f ii (temp ii)) m =
  run (points (corner [n0])) (fun q => f (hd 0 q) (temp (rank [n0] q))) m.
Proof.
  intros H. unfold corner. cbn [map]. rewrite for_uint_run by lia. rewrite run_points_cons. cbn [fst snd].
  apply run_ext. intros x s Hx. rewrite run_points_nil. cbn [hd rank product fold_right]. do 2 f_equal. lia.
Qed.

Lemma loop2 (n0 n1 : Z) (f : Z -> Z -> res V -> M (mem V) unit) temp m :
  0 < n0 -> 0 < n1 -> n0 * n1 < UINT_MOD ->
  for_uint 0 n0 (fun ii => for_uint 0 n1 (fun jj => f ii jj (temp (uadd (umul ii n1) jj)))) m =
  run (points (corner [n0; n1])) (fun q => f (nth 0 q 0) (nth 1 q 0) (temp (rank [n0; n1] q))) m.
Proof.
  intros H0 H1 H. unfold corner. cbn [map].
  rewrite for_uint_run by nia. rewrite run_points_cons. cbn [fst snd].
  apply run_ext. intros x s Hx. apply in_zrange in Hx.
  rewrite for_uint_run by nia. rewrite run_points_cons. cbn [fst snd].
  apply run_ext. intros y s' Hy. apply in_zrange in Hy.
  rewrite run_points_nil. cbn [nth rank product fold_right].
  rewrite umul_small by nia. rewrite uadd_small by nia. do 2 f_equal. lia.
Qed.

Lemma loop3 (n0 n1 n2 : Z) (f : Z -> Z -> Z -> res V -> M (mem V) unit) temp m :
  0 < n0 -> 0 < n1 -> 0 < n2 -> n0 * n1 * n2 < UINT_MOD ->
  for_uint 0 n0 (fun ii => for_uint 0 n1 (fun jj => for_uint 0 n2 (fun kk =>
    f ii jj kk (temp (uadd (uadd (umul (umul ii n1) n2) (umul jj n2)) kk))))) m =
  run (points (corner [n0; n1; n2])) (fun q => f (nth 0 q 0) (nth 1 q 0) (nth 2 q 0) (temp (rank [n0; n1; n2] q))) m.
Proof.
  intros H0 H1 H2 H.
  assert (A1 : n0 * n1 < UINT_MOD) by nia. assert (A2 : n1 * n2 < UINT_MOD) by nia.
  unfold corner. cbn [map].
  rewrite for_uint_run by nia. rewrite run_points_cons. cbn [fst snd].
  apply run_ext. intros x s Hx. apply in_zrange in Hx.
  rewrite for_uint_run by nia. rewrite run_points_cons. cbn [fst snd].
  apply run_ext. intros y s' Hy. apply in_zrange in Hy.
  rewrite for_uint_run by nia. rewrite run_points_cons. cbn [fst snd].
  apply run_ext. intros z s'' Hz. apply in_zrange in Hz.
  rewrite run_points_nil. cbn [nth rank product fold_right].
  assert (B1 : x * n1 <= (n0 - 1) * n1) by nia. assert (B2 : (x * n1 + y) + 1 <= n0 * n1) by nia.
  assert (B3 : (x * n1 + y) * n2 + z < n0 * n1 * n2) by nia.
  assert (B4 : 0 <= x * n1 * n2) by nia. assert (B5 : 0 <= y * n2) by nia.
  rewrite (umul_small x n1) by nia. rewrite umul_small by nia. rewrite umul_small by nia.
  rewrite (uadd_small (x * n1 * n2)) by nia. rewrite uadd_small by nia. do 2 f_equal. lia.
Qed.

(** The call in closed form. *)
Definition fill (o : obj) (nn : Z) (ss : list Z) (temp : Z -> res V) : M (mem V) unit :=
  run (points (corner ss)) (fun q => put_temp (fun m => m_lval m o nn q) (temp (rank ss q))).

Lemma run_in_ext {S A} (l : list A) (f g : A -> M S unit) s :
  (forall x s, In x l -> f x s = g x s) -> run l f s = run l g s.
Proof. intros H. apply run_ext. intros. now apply H. Qed.

Lemma fill1 o nn n0 temp m : 0 < n0 < UINT_MOD ->
  for_uint 0 n0 (fun ii => put_temp (fun m => lval1 m o nn ii) (temp ii)) m = fill (O1 o) nn [n0] temp m.
Proof.
  intros H. rewrite (loop1 n0 (fun ii t => put_temp (fun m => lval1 m o nn ii) t)) by assumption.
  apply run_in_ext. intros q s Hq. apply in_points in Hq. cbn [corner map] in Hq.
  apply in_box_cons in Hq. destruct Hq as (x & q' & -> & _ & Hq). inversion Hq; subst. reflexivity.
Qed.
Lemma fill2 o nn n0 n1 temp m : 0 < n0 -> 0 < n1 -> n0 * n1 < UINT_MOD ->
  for_uint 0 n0 (fun ii => for_uint 0 n1 (fun jj =>
    put_temp (fun m => lval2 m o nn ii jj) (temp (uadd (umul ii n1) jj)))) m = fill (O2 o) nn [n0; n1] temp m.
Proof.
  intros H0 H1 H. rewrite (loop2 n0 n1 (fun ii jj t => put_temp (fun m => lval2 m o nn ii jj) t)) by assumption.
  apply run_in_ext. intros q s Hq. apply in_points in Hq. cbn [corner map] in Hq.
  apply in_box_cons in Hq. destruct Hq as (x & q' & -> & _ & Hq).
  apply in_box_cons in Hq. destruct Hq as (y & q'' & -> & _ & Hq). inversion Hq; subst. reflexivity.
Qed.
Lemma fill3 o nn n0 n1 n2 temp m : 0 < n0 -> 0 < n1 -> 0 < n2 -> n0 * n1 * n2 < UINT_MOD ->
  for_uint 0 n0 (fun ii => for_uint 0 n1 (fun jj => for_uint 0 n2 (fun kk =>
    put_temp (fun m => lval3 m o nn ii jj kk) (temp (uadd (uadd (umul (umul ii n1) n2) (umul jj n2)) kk))))) m
  = fill (O3 o) nn [n0; n1; n2] temp m.
Proof.
  intros H0 H1 H2 H. rewrite (loop3 n0 n1 n2 (fun ii jj kk t => put_temp (fun m => lval3 m o nn ii jj kk) t)) by assumption.
  apply run_in_ext. intros q s Hq. apply in_points in Hq. cbn [corner map] in Hq.
  apply in_box_cons in Hq. destruct Hq as (x & q' & -> & _ & Hq).
  apply in_box_cons in Hq. destruct Hq as (y & q'' & -> & _ & Hq).
  apply in_box_cons in Hq. destruct Hq as (z & q3 & -> & _ & Hq). inversion Hq; subst. reflexivity.
Qed.

Lemma read_var_ext fs root log z name cnt (loop loop' : (Z -> res V) -> M (mem V) unit) st :
  (forall temp m, loop temp m = loop' temp m) ->
  read_var of_float of_double fs root log z name cnt loop st = read_var of_float of_double fs root log z name cnt loop' st.
Proof.
  intros H. unfold read_var. destruct (Nat.eqb _ _); [reflexivity|]. unfold bind.
  destruct (lift _ st) as [st1 d|st1 e|]; [|reflexivity|reflexivity].
  destruct (open_at _ _ _ st1) as [st2 b|st2 e|]; [|reflexivity|reflexivity].
  destruct (read_bytes _ _ _ st2) as [st3 buf|st3 e|]; [|reflexivity|reflexivity].
  unfold by_type, bind, on_fst. destruct st3 as [m3 l3].
  destruct (dl_type d =? 1); [now rewrite H|]. destruct (dl_type d =? 2); [now rewrite H|reflexivity].
Qed.

Lemma check_n_ok N nn : (chk = true \/ nn < N) -> 1 <= N <= INT_MAX ->
  check_n chk N nn = if N <=? nn then Err (EN nn (N - 1)) else Ok tt.
Proof.
  intros H HN. unfold check_n. destruct (Z.leb_spec N nn).
  - destruct H as [->|H]; [|lia]. replace (nn >=? N) with true by (symmetry; apply Z.geb_le; lia).
    unfold u2i. replace (N <=? INT_MAX) with true by (symmetry; apply Z.leb_le; lia).
    unfold isub. rewrite ck_ok by (unfold in_int; lia). reflexivity.
  - destruct chk; [|reflexivity]. replace (nn >=? N) with false; [reflexivity|].
    symmetry. rewrite Z.geb_leb. apply Z.leb_gt. lia.
Qed.

Lemma log_zone_none log zone : Z.of_nat (length (fl_zones log)) <= zone -> log_zone log zone = Err EZoneTooBig.
Proof. intros H. unfold log_zone. now rewrite (proj2 (Z.leb_le _ _) H). Qed.
Lemma log_zone_some log zone z : 0 <= zone -> nth_error (fl_zones log) (Z.to_nat zone) = Some z -> log_zone log zone = Ok z.
Proof.
  intros H0 H. unfold log_zone. assert (L : (Z.to_nat zone < length (fl_zones log))%nat) by (apply nth_error_Some; congruence).
  rewrite (proj2 (Z.leb_gt _ _)) by lia. now rewrite H.
Qed.

Definition sizes_ok (k : kind) (o : obj) : Prop :=
  class_ok k o /\ Forall shape_ok (m_size o) /\ forall ss, Forall2 size_in (m_size o) ss -> product ss < UINT_MOD.

Notation the_read := (m_read_plt chk of_float of_double).

Lemma read_early k fs root log zone name nn o st :
  class_ok k o -> (chk = true \/ nn < k_N k) -> 1 <= k_N k <= INT_MAX ->
  (k_N k <= nn -> the_read k fs root log zone name nn o st = Thr st (EN nn (k_N k - 1))) /\
  (nn < k_N k -> Z.of_nat (length (fl_zones log)) <= zone -> the_read k fs root log zone name nn o st = Thr st EZoneTooBig).
Proof.
  intros Hc Hk HN. split.
  - intros H. assert (E : check_n chk (k_N k) nn = Err (EN nn (k_N k - 1))).
    { rewrite check_n_ok by assumption. now rewrite (proj2 (Z.leb_le _ _) H). }
    destruct k, o; try contradiction; cbn [m_read_plt k_N] in *; unfold read_plt1, read_plt2, read_plt3, bind, lift;
      rewrite E; reflexivity.
  - intros H Hz. assert (E : check_n chk (k_N k) nn = Ok tt).
    { rewrite check_n_ok by assumption. now rewrite (proj2 (Z.leb_gt _ _) H). }
    pose proof (log_zone_none _ _ Hz) as Ez.
    destruct k, o; try contradiction; cbn [m_read_plt k_N] in *; unfold read_plt1, read_plt2, read_plt3, bind, lift;
      rewrite E, Ez; reflexivity.
Qed.

Lemma read_located k fs root log zone name nn o z st :
  sizes_ok k o -> 1 <= k_N k <= INT_MAX -> 0 <= zone -> located log zone nn k z ->
  Forall in_int (list3 (r_max (zl_real z))) ->
  (~ Forall2 size_in (m_size o) (log_sizes k z) -> the_read k fs root log zone name nn o st = Thr st EFileSize) /\
  (Forall2 size_in (m_size o) (log_sizes k z) ->
   the_read k fs root log zone name nn o st =
   read_var of_float of_double fs root log z name (product (log_sizes k z)) (fill o nn (log_sizes k z)) st).
Proof.
  intros (Hc & Hs & Hp) HN Hz0 (Hn & Hz) HI.
  assert (E : check_n chk (k_N k) nn = Ok tt).
  { rewrite check_n_ok by auto. now rewrite (proj2 (Z.leb_gt _ _) Hn). }
  pose proof (log_zone_some _ _ _ Hz0 Hz) as Ez.
  destruct (r_max (zl_real z)) as [s0 s1 s2] eqn:Er. cbn [list3 x0 x1 x2] in HI.
  inversion HI as [|? ? I0 HI1]; subst. inversion HI1 as [|? ? I1 HI2]; subst. inversion HI2 as [|? ? I2 _]; subst.
  assert (F : n_file z 1 0 = Ok (i2u s0) /\ n_file z 2 0 = Ok (i2u s1) /\ n_file z 2 1 = Ok (i2u s0) /\
              n_file z 3 0 = Ok (i2u s2) /\ n_file z 3 1 = Ok (i2u s1) /\ n_file z 3 2 = Ok (i2u s0)).
  { unfold n_file. rewrite Er. cbn. auto 10. }
  destruct F as (F10 & F20 & F21 & F30 & F31 & F32).
  destruct k as [N l0|N l0 l1|N l0 l1 l2], o as [o|o|o]; try contradiction;
    cbn [m_read_plt k_N k_locs length m_size] in *; unfold log_sizes in *; rewrite Er in *;
    cbn [list3 x0 x1 x2 firstn rev app length k_locs] in *.
  - unfold shape1 in *. inversion Hs as [|? ? S0 _]; subst.
    pose proof (size_in_bad _ _ S0 I0) as B0. cbn [fst snd] in B0.
    unfold read_plt1. rewrite E, bind_lift_ok. rewrite Ez, bind_lift_ok.
    rewrite F10, bind_lift_ok. split; intros H.
    + destruct (bad_size (i2u s0) (s1_in (pd1_size o))); [reflexivity|]. exfalso. apply H. constructor; [now apply B0|constructor].
    + inversion H as [|? ? ? ? A0 _]; subst. rewrite (proj2 B0 A0). rewrite (size_i2u _ _ S0 A0).
      rewrite product_cons. cbn [product fold_right]. rewrite Z.mul_1_r. apply read_var_ext. intros temp m.
      specialize (Hp _ H). rewrite product_cons in Hp. cbn [product fold_right] in Hp. cbn [size_in] in A0. apply fill1. lia.
  - unfold shape2 in *. inversion Hs as [|? ? S0 Hs1]; subst. inversion Hs1 as [|? ? S1 _]; subst.
    pose proof (size_in_bad _ _ S0 I1) as B0. pose proof (size_in_bad _ _ S1 I0) as B1. cbn [fst snd] in B0, B1.
    unfold read_plt2. rewrite E, bind_lift_ok. rewrite Ez, bind_lift_ok.
    rewrite F20, bind_lift_ok. rewrite F21, bind_lift_ok. split; intros H.
    + destruct (bad_size (i2u s1) _) eqn:D0; [reflexivity|]. destruct (bad_size (i2u s0) _) eqn:D1; [reflexivity|].
      exfalso. apply H. constructor; [now apply B0|]. constructor; [now apply B1|constructor].
    + inversion H as [|? ? ? ? A0 H1]; subst. inversion H1 as [|? ? ? ? A1 _]; subst.
      rewrite (proj2 B0 A0), (proj2 B1 A1). cbn [orb]. rewrite (size_i2u _ _ S0 A0), (size_i2u _ _ S1 A1).
      specialize (Hp _ H). rewrite !product_cons in *. cbn [product fold_right] in *. rewrite Z.mul_1_r in *.
      cbn [size_in] in A0, A1. rewrite umul_small by nia.
      apply read_var_ext. intros temp m. apply fill2; [apply A0|apply A1|assumption].
  - unfold shape3 in *. inversion Hs as [|? ? S0 Hs1]; subst. inversion Hs1 as [|? ? S1 Hs2]; subst. inversion Hs2 as [|? ? S2 _]; subst.
    pose proof (size_in_bad _ _ S0 I2) as B0. pose proof (size_in_bad _ _ S1 I1) as B1. pose proof (size_in_bad _ _ S2 I0) as B2.
    cbn [fst snd] in B0, B1, B2.
    unfold read_plt3. rewrite E, bind_lift_ok. rewrite Ez, bind_lift_ok.
    rewrite F30, bind_lift_ok. rewrite F31, bind_lift_ok. rewrite F32, bind_lift_ok. split; intros H.
    + destruct (bad_size (i2u s2) _) eqn:D0; [reflexivity|]. destruct (bad_size (i2u s1) _) eqn:D1; [reflexivity|].
      destruct (bad_size (i2u s0) _) eqn:D2; [reflexivity|].
      exfalso. apply H. constructor; [now apply B0|]. constructor; [now apply B1|]. constructor; [now apply B2|constructor].
    + inversion H as [|? ? ? ? A0 H1]; subst. inversion H1 as [|? ? ? ? A1 H2]; subst. inversion H2 as [|? ? ? ? A2 _]; subst.
      rewrite (proj2 B0 A0), (proj2 B1 A1), (proj2 B2 A2). cbn [orb].
      rewrite (size_i2u _ _ S0 A0), (size_i2u _ _ S1 A1), (size_i2u _ _ S2 A2).
      specialize (Hp _ H). rewrite !product_cons in *. cbn [product fold_right] in *. rewrite Z.mul_1_r in *.
      cbn [size_in] in A0, A1, A2. rewrite Z.mul_assoc in *.
      assert (0 < s2 * s1) by (apply Z.mul_pos_pos; lia). assert (s2 * s1 < UINT_MOD) by nia.
      rewrite (umul_small s2 s1) by lia. rewrite umul_small by (split; [apply Z.mul_nonneg_nonneg; lia|assumption]).
      apply read_var_ext. intros temp m. apply fill3; [apply A0|apply A1|apply A2|assumption].
Qed.

(** ** Filling the corner *)

Lemma fill_run k m o gs f bs nn ss l temp val :
  kok k -> rep k m o (ALive gs f) bs -> 0 <= nn < k_N k ->
  (forall q, In q l -> in_box (sbox k gs) q /\ temp (rank ss q) = Ok (val q)) ->
  exists m', run l (fun q => put_temp (fun m => m_lval m o nn q) (temp (rank ss q))) m = Ret m' tt /\
    same_but [hd O bs] m m' /\
    rep k m' o (ALive gs (fun n q => if (n =? nn) && (if in_dec (list_eq_dec Z.eq_dec) q l then true else false)
                                     then Some (val q) else f n q)) bs.
Proof.
  intros HN. revert m f. induction l as [|q l IH]; intros m f Hr Hn Hl.
  - exists m. split; [reflexivity|]. split; [apply same_but_refl|].
    destruct Hr as (R1 & R2 & R3 & R4). split; [assumption|]. split; [assumption|]. split; [assumption|].
    eapply holds_ext; [|exact R4]. intros n q _ _. cbv beta. destruct (in_dec _ q []) as [[]|_]. now rewrite andb_false_r.
  - destruct (Hl q) as [Hq Ht]; [now left|]. pose proof Hr as (R1 & R2 & R3 & R4).
    destruct (holds_store _ _ _ _ _ nn q (Some (val q)) R4 Hn Hq) as (m1 & E1 & S1 & H1).
    pose proof (put_rep k m m1 o gs f bs nn q (val q) Hr Hn Hq E1 S1 H1) as Hr1.
    destruct (IH m1 _ Hr1 Hn) as (m2 & E2 & S2 & Hr2); [intros; apply Hl; now right|].
    exists m2. split; [|split; [eapply same_but_trans; eassumption|]].
    + cbn [run]. erewrite bind_ret; [exact E2|]. unfold put_temp. rewrite Ht, bind_lift_ok.
      unfold bind, gets, lift. rewrite (lval_ok k m o gs bs nn q HN R3 Hn Hq). exact E1.
    + destruct Hr2 as (T1 & T2 & T3 & T4). split; [assumption|]. split; [assumption|]. split; [assumption|].
      eapply holds_ext; [|exact T4]. intros n q' _ _. cbv beta. unfold put_at.
      destruct (Z.eqb_spec n nn) as [->|N]; cbn [andb]; [|reflexivity].
      destruct (in_dec _ q' l) as [I1|I1]; destruct (in_dec _ q' (q :: l)) as [I2|I2]; try reflexivity.
      * destruct I2. now right.
      * destruct I2 as [->|I2]; [|contradiction]. replace (zs_eqb q' q') with true by (symmetry; now apply zs_eqb_eq). reflexivity.
      * destruct (zs_eqb q' q) eqn:E; [|reflexivity]. apply zs_eqb_eq in E. subst. destruct I2. now left.
Qed.

Lemma fill_ok k m o gs f bs nn ss temp val :
  kok k -> rep k m o (ALive gs f) bs -> 0 <= nn < k_N k -> Forall2 size_in gs ss ->
  (forall q, in_box (corner ss) q -> temp (rank ss q) = Ok (val q)) ->
  exists m', fill o nn ss temp m = Ret m' tt /\ same_but [hd O bs] m m' /\
    rep k m' o (ALive gs (fun n q => if (n =? nn) && in_boxb (corner ss) q then Some (val q) else f n q)) bs.
Proof.
  intros HN Hr Hn Hs Ht. pose proof Hr as ((L & S & _) & _).
  destruct (fill_run k m o gs f bs nn ss (points (corner ss)) temp val HN Hr Hn) as (m' & E & Hb & Hr').
  - intros q Hq. apply in_points in Hq. split; [|now apply Ht]. unfold sbox. eapply corner_in; eassumption.
  - exists m'. split; [exact E|]. split; [exact Hb|].
    destruct Hr' as (T1 & T2 & T3 & T4). split; [assumption|]. split; [assumption|]. split; [assumption|].
    eapply holds_ext; [|exact T4]. intros n q _ _. cbv beta.
    destruct (in_dec _ q (points (corner ss))) as [I1|I1]; destruct (in_boxb (corner ss) q) eqn:I2; try reflexivity.
    + apply in_points, in_boxb_iff in I1. congruence.
    + apply in_boxb_iff, in_points in I2. contradiction.
Qed.

(** ** The file *)

Lemma skipn_add {A} (a c : nat) (l : list A) : skipn a (skipn c l) = skipn (c + a) l.
Proof. revert l. induction c as [|c IH]; intros l; [reflexivity|]. destruct l; [now rewrite !skipn_nil|]. apply IH. Qed.

Lemma piece_piece {A} (w i n pos : nat) (l : list A) :
  (i + w <= n)%nat -> firstn w (skipn i (firstn n (skipn pos l))) = firstn w (skipn (pos + i) l).
Proof.
  intros H. rewrite skipn_firstn_comm, firstn_firstn, skipn_add. f_equal. lia.
Qed.

Lemma width_range t : 0 <= width t <= 8.
Proof. unfold width. repeat match goal with |- context [match ?x with _ => _ end] => destruct x end; lia. Qed.

Lemma temp_stored type wd conv b pos cnt i :
  (type = 1 /\ wd = 4 /\ conv = of_float) \/ (type = 2 /\ wd = 8 /\ conv = of_double) ->
  0 <= pos -> 0 <= i < cnt -> pos + cnt * wd <= Z.of_nat (length b) ->
  temp_at wd conv (firstn (Z.to_nat (cnt * wd)) (skipn (Z.to_nat pos) b)) i =
  match stored of_float of_double type b pos i with Some v => Ok v | None => UB end.
Proof.
  intros HT Hp Hi Hl.
  assert (Hw : 4 <= wd <= 8 /\ width type = wd /\ conv = if type =? 1 then of_float else of_double).
  { destruct HT as [(-> & -> & ->)|(-> & -> & ->)]; cbn; split; [lia|auto|lia|auto]. }
  destruct Hw as (Hw & Ew & ->). clear HT.
  unfold temp_at, stored. rewrite Ew. rewrite firstn_length, skipn_length.
  assert (A : i * wd + wd <= cnt * wd) by nia.
  rewrite (proj2 (Z.leb_le _ _)) by lia.
  rewrite piece_piece by lia.
  rewrite <- Z2Nat.inj_add by nia. reflexivity.
Qed.

Notation the_var := (read_var of_float of_double).

Section Var.
Variables (fs : files) (root : string) (log : file_log) (z : zone_log) (name : string) (cnt : Z).
Variables (loop : (Z -> res V) -> M (mem V) unit) (m : mem V) (live : Z).
Hypothesis Hcnt : 0 < cnt < UINT_MOD.
Let ticked := mkMem (blocks m) (fails m) (S (tick m)).

Lemma var_unknown : ~ In name (f_vars (fl_file log)) ->
  the_var fs root log z name cnt loop (m, live) = Thr (m, live) EVarNotFound.
Proof.
  intros H. unfold read_var. apply find_var_none in H. rewrite H, Nat.eqb_refl. reflexivity.
Qed.

Variable (d : data_log).
Hypothesis Hd : exists vv, first_at (f_vars (fl_file log)) name vv /\ nth_error (zl_data z) vv = Some d.
Hypothesis Hsz : dl_size d = width (dl_type d).

Lemma var_named :
  the_var fs root log z name cnt loop (m, live) =
  (do* b := open_at fs (plt_path root log) (dl_pt d) in
   do* buf := read_bytes b (dl_pt d) (cnt * width (dl_type d)) in
   by_type of_float of_double (dl_type d) buf loop) (m, live).
Proof.
  destruct Hd as (vv & Hv & Hn). unfold read_var.
  assert (N : find_var (f_vars (fl_file log)) name <> length (f_vars (fl_file log))).
  { intros E. apply find_var_none in E. destruct E. destruct Hv as [Hv _]. eapply nth_error_In; eassumption. }
  apply Nat.eqb_neq in N. rewrite N. apply first_at_find in Hv. subst vv. rewrite Hn, bind_lift_ok.
  unfold szmul. rewrite Hsz, Z.mod_small; [reflexivity|].
  pose proof (width_range (dl_type d)). nia.
Qed.

Lemma var_closed : fs (plt_path root log) = None \/ dl_pt d < 0 ->
  the_var fs root log z name cnt loop (m, live) = Thr (m, live) EOpen.
Proof.
  intros H. rewrite var_named. unfold open_at, bind at 1. destruct (fs _) as [b|]; [|reflexivity].
  destruct H as [H|H]; [discriminate|]. now rewrite (proj2 (Z.ltb_lt _ _) H).
Qed.

Variable (b : bytes).
Hypothesis Hb : fs (plt_path root log) = Some b.
Hypothesis Hp : 0 <= dl_pt d.

Lemma var_opened :
  the_var fs root log z name cnt loop (m, live) =
  (do* buf := read_bytes b (dl_pt d) (cnt * width (dl_type d)) in
   by_type of_float of_double (dl_type d) buf loop) (m, live).
Proof.
  rewrite var_named. unfold open_at, bind at 1. rewrite Hb. now rewrite (proj2 (Z.ltb_ge _ _) Hp).
Qed.

Lemma size_small : 0 <= cnt * width (dl_type d) < 2 ^ 63.
Proof. pose proof (width_range (dl_type d)). nia. Qed.

Lemma var_starved : fails m (tick m) = true ->
  the_var fs root log z name cnt loop (m, live) = Thr (ticked, live) ENoMem.
Proof.
  intros H. rewrite var_opened. unfold read_bytes, bind at 1, bind at 1, catch_bad_alloc, buf_new.
  rewrite H. reflexivity.
Qed.

Hypothesis Hm : fails m (tick m) = false.

Lemma var_short : Z.of_nat (length b) < dl_pt d + cnt * width (dl_type d) -> width (dl_type d) <> 0 ->
  the_var fs root log z name cnt loop (m, live) = Thr (ticked, live) ERead.
Proof.
  intros H Hw. rewrite var_opened. unfold read_bytes, bind at 1, bind at 1, catch_bad_alloc, buf_new.
  pose proof size_small. pose proof (width_range (dl_type d)). rewrite Hm, (proj2 (Z.leb_gt _ _)) by lia. cbn [orb].
  rewrite (proj2 (Z.eqb_neq _ _)) by nia. rewrite (proj2 (Z.leb_gt _ _)) by lia. cbn [orb].
  unfold bind, buf_delete, upd_snd, throw. cbn [fst snd]. do 2 f_equal. lia.
Qed.

Hypothesis Hl : dl_pt d + cnt * width (dl_type d) <= Z.of_nat (length b).

Lemma var_obtained :
  the_var fs root log z name cnt loop (m, live) =
  by_type of_float of_double (dl_type d)
    (firstn (Z.to_nat (cnt * width (dl_type d))) (skipn (Z.to_nat (dl_pt d)) b)) loop (ticked, live + 1).
Proof.
  rewrite var_opened. unfold read_bytes, bind at 1, bind at 1, catch_bad_alloc, buf_new.
  pose proof size_small. rewrite Hm, (proj2 (Z.leb_gt _ _)) by lia. cbn [orb].
  rewrite (proj2 (Z.leb_le _ _) Hl), orb_true_r. reflexivity.
Qed.

Lemma var_type : dl_type d <> 1 -> dl_type d <> 2 ->
  the_var fs root log z name cnt loop (m, live) = Thr (ticked, live) ETecType.
Proof.
  intros H1 H2. rewrite var_obtained. unfold by_type.
  rewrite (proj2 (Z.eqb_neq _ _) H1), (proj2 (Z.eqb_neq _ _) H2).
  unfold bind, buf_delete, upd_snd, throw. cbn [fst snd]. do 2 f_equal. lia.
Qed.

Lemma var_done m' : dl_type d = 1 \/ dl_type d = 2 ->
  (forall temp, (forall i, 0 <= i < cnt ->
      temp i = match stored of_float of_double (dl_type d) b (dl_pt d) i with Some v => Ok v | None => UB end) ->
    loop temp ticked = Ret m' tt) ->
  the_var fs root log z name cnt loop (m, live) = Ret (m', live) tt.
Proof.
  intros H1 H. rewrite var_obtained. unfold by_type.
  destruct H1 as [E|E]; rewrite E in *; cbn [Z.eqb Pos.eqb]; unfold bind, on_fst;
    rewrite H;
    try (intros i Hi; apply temp_stored; [auto|assumption|assumption|assumption]);
    unfold buf_delete, upd_snd; cbn [fst snd]; do 2 f_equal; lia.
Qed.
End Var.

(** ** The whole call *)

Lemma rep_sizes k m o x bs :
  kok k -> rep k m o x bs -> (forall gs nb, x <> ABroken gs nb) -> sizes_ok k o.
Proof.
  intros HN Hr Hx. split; [eapply rep_class; exact Hr|]. split; [eapply rep_shape_ok; exact Hr|].
  intros ss Hs. rewrite (rep_size _ _ _ _ _ Hr) in Hs. destruct x as [|gs f|gs nb]; [| |destruct (Hx gs nb); reflexivity].
  - cbn [a_shape] in Hs. exfalso. destruct k; cbn in Hs; inversion Hs as [|? ? ? ? H _]; subst; cbn in H; lia.
  - cbn [a_shape] in Hs. destruct Hr as ((L & S & B) & _). pose proof (corner_vol (k_locs k) gs ss S L Hs).
    unfold kok in HN. nia.
Qed.

Lemma rep_not_empty k m o x bs ss :
  rep k m o x bs -> (forall gs nb, x <> ABroken gs nb) -> Forall2 size_in (m_size o) ss ->
  exists gs f, x = ALive gs f.
Proof.
  intros Hr Hx Hs. rewrite (rep_size _ _ _ _ _ Hr) in Hs. destruct x as [|gs f|gs nb]; [|eauto|destruct (Hx gs nb); reflexivity].
  cbn [a_shape] in Hs. exfalso. destruct k; cbn in Hs; inversion Hs as [|? ? ? ? H _]; subst; cbn in H; lia.
Qed.

(** Requests for memory made before the call throws. *)
Definition asked (e : exn) : nat := match e with ENoMem | ERead | ETecType => 1%nat | _ => O end.

Lemma width_pos t : 1 <= t <= 5 -> width t <> 0.
Proof. intros H. assert (t = 1 \/ t = 2 \/ t = 3 \/ t = 4 \/ t = 5) as [-> | [-> | [-> | [-> | ->]]]] by lia; discriminate. Qed.

Lemma size_in_dec g s : {size_in g s} + {~ size_in g s}.
Proof. destruct g as [[n i] p]. cbn [size_in]. destruct (Z_lt_dec 0 s); [destruct (Z_le_dec s i)|]; [left|right|right]; lia. Qed.
Lemma sizes_in_dec gs ss : {Forall2 size_in gs ss} + {~ Forall2 size_in gs ss}.
Proof.
  revert ss. induction gs as [|g gs IH]; intros [|s ss]; [left; constructor|right; inversion 1|right; inversion 1|].
  destruct (size_in_dec g s) as [H|H]; [|right; now inversion 1].
  destruct (IH ss) as [H'|H']; [left; now constructor|right; now inversion 1].
Qed.

Section Call.
Variables (k : kind) (m : mem V) (o : obj) (x : arr V) (bs : list nat).
Hypothesis HN : kok k.
Hypothesis Hr : rep k m o x bs.
Hypothesis Hx : forall gs nb, x <> ABroken gs nb.
Variables (fs : files) (root : string) (log : file_log) (zone : Z) (name : string) (nn : Z) (live : Z).
Hypothesis Hlog : log_wf log.
Hypothesis Hz0 : 0 <= zone.
Let starved := fails m (tick m) = true.

Lemma log_ints z : located log zone nn k z -> Forall in_int (list3 (r_max (zl_real z))).
Proof.
  intros [_ H]. apply nth_error_In in H. unfold log_wf in Hlog. rewrite Forall_forall in Hlog. now apply Hlog.
Qed.
Lemma log_entry z d : named log zone name nn k (m_size o) z d -> 1 <= dl_type d <= 5 /\ dl_size d = width (dl_type d).
Proof.
  intros (([_ H] & _) & vv & _ & Hd). apply nth_error_In in H. unfold log_wf in Hlog. rewrite Forall_forall in Hlog.
  destruct (Hlog _ H) as (_ & Ht & _). rewrite Forall_forall in Ht. apply Ht. eapply nth_error_In; eassumption.
Qed.

Lemma sized_eq z st : sized log zone nn k (m_size o) z ->
  0 < product (log_sizes k z) < UINT_MOD /\
  the_read k fs root log zone name nn o st =
  the_var fs root log z name (product (log_sizes k z)) (fill o nn (log_sizes k z)) st.
Proof.
  intros [HL HS]. pose proof (rep_sizes _ _ _ _ _ HN Hr Hx) as Hs.
  destruct (read_located k fs root log zone name nn o z st Hs HN Hz0 HL (log_ints z HL)) as [_ H].
  split; [|now apply H]. destruct Hs as (Hc & Hs & Hp). specialize (Hp _ HS).
  assert (L : length (m_size o) = length (k_locs k)) by now apply m_size_length.
  pose proof (corner_vol (k_locs k) (m_size o) _ Hs L HS). lia.
Qed.

Lemma refused_at e :
  (chk = true \/ nn < k_N k) -> refusal fs root log zone name nn k (m_size o) starved e ->
  the_read k fs root log zone name nn o (m, live) = Thr (mkMem (blocks m) (fails m) (tick m + asked e), live) e.
Proof.
  intros Hk HR. pose proof (rep_sizes _ _ _ _ _ HN Hr Hx) as Hs.
  destruct (read_early k fs root log zone name nn o (m, live) (proj1 Hs) Hk HN) as [E1 E2].
  assert (Same : mkMem (blocks m) (fails m) (tick m + 0) = m) by (rewrite Nat.add_0_r; now destruct m).
  destruct HR as [H|H H'|z H H'|z H H'|z d H H'|z d b H H'|z d b H H' H''|z d b H H1 H2]; cbn [asked]; rewrite ?Same, ?Nat.add_1_r.
  - now apply E1.
  - now apply E2.
  - destruct (read_located k fs root log zone name nn o z (m, live) Hs HN Hz0 H (log_ints z H)) as [E _]. now apply E.
  - destruct (sized_eq z (m, live) H) as [Hc ->]. now apply var_unknown.
  - pose proof (log_entry z d H) as [_ Hd].
    destruct H as [H Hv]. destruct (sized_eq z (m, live) H) as [Hc ->]. eapply var_closed; eassumption.
  - destruct H as (H & Hb & Hp). pose proof (log_entry z d H) as [_ Hd].
    destruct H as [H Hv]. destruct (sized_eq z (m, live) H) as [Hc ->]. eapply var_starved; try eassumption.
  - destruct H as (H & Hb & Hp). pose proof (log_entry z d H) as [Ht Hd].
    destruct H as [H Hv]. destruct (sized_eq z (m, live) H) as [Hc ->]. eapply var_short; try eassumption.
    + unfold starved in H'. destruct (fails _ _); [destruct H'; reflexivity|reflexivity].
    + now apply width_pos.
  - destruct H as ((H & Hb & Hp) & H' & H''). pose proof (log_entry z d H) as [_ Hd].
    destruct H as [H Hv]. destruct (sized_eq z (m, live) H) as [Hc ->]. eapply var_type; try eassumption.
    unfold starved in H'. destruct (fails _ _); [destruct H'; reflexivity|reflexivity].
Qed.

Hypothesis Hn0 : 0 <= nn.

Lemma done_at z d b :
  readable fs root log zone name nn k (m_size o) starved z d b ->
  (forall i, 0 <= i < product (log_sizes k z) -> stored of_float of_double (dl_type d) b (dl_pt d) i <> None) ->
  exists m' gs f, x = ALive gs f /\
    the_read k fs root log zone name nn o (m, live) = Ret (m', live) tt /\
    same_but [hd O bs] (mkMem (blocks m) (fails m) (S (tick m))) m' /\
    rep k m' o (ALive gs (fun n q =>
      if (n =? nn) && in_boxb (corner (log_sizes k z)) q
      then stored of_float of_double (dl_type d) b (dl_pt d) (rank (log_sizes k z) q) else f n q)) bs.
Proof.
  intros (((H & Hb & Hp) & Hst & Hl) & Ht) Hconv.
  pose proof (log_entry z d H) as [_ Hd]. destruct H as [H Hv].
  destruct (sized_eq z (m, live) H) as [Hc Eq]. destruct H as [[Hn _] HS].
  destruct (rep_not_empty _ _ _ _ _ _ Hr Hx HS) as (gs & f & Ex). rewrite Ex in Hr.
  pose proof (rep_size _ _ _ _ _ Hr) as Zs. cbn [a_shape] in Zs. rewrite Zs in HS.
  set (ss := log_sizes k z) in *.
  set (val := fun q => stored of_float of_double (dl_type d) b (dl_pt d) (rank ss q)) in *.
  (* a total version of the values *)
  assert (V0 : exists v0 : V, True).
  { specialize (Hconv 0). destruct (stored _ _ _ _ _ 0) as [v0|]; [now exists v0|destruct Hconv; [lia|reflexivity]]. }
  destruct V0 as [v0 _].
  set (tv := fun q => match val q with Some v => v | None => v0 end).
  assert (Etv : forall q, in_box (corner ss) q -> val q = Some (tv q)).
  { intros q Hq. unfold tv. specialize (Hconv _ (rank_range ss q Hq)). unfold val in *. destruct (stored _ _ _ _ _ _); [reflexivity|congruence]. }
  set (m1 := mkMem (blocks m) (fails m) (S (tick m))) in *.
  assert (Hr1 : rep k m1 o (ALive gs f) bs) by (revert Hr; apply rep_frame; reflexivity).
  assert (X : exists m', (forall temp, (forall i, 0 <= i < product ss ->
      temp i = match stored of_float of_double (dl_type d) b (dl_pt d) i with Some v => Ok v | None => UB end) ->
        fill o nn ss temp m1 = Ret m' tt) /\ same_but [hd O bs] m1 m' /\
      rep k m' o (ALive gs (fun n q => if (n =? nn) && in_boxb (corner ss) q then Some (tv q) else f n q)) bs).
  { set (temp0 := fun i => match stored of_float of_double (dl_type d) b (dl_pt d) i with Some v => Ok v | None => UB end).
    destruct (fill_ok k m1 o gs f bs nn ss temp0 tv HN Hr1 (conj Hn0 Hn) HS) as (m' & E & S1 & R1).
    - intros q Hq. specialize (Etv q Hq). unfold val in Etv. unfold temp0. now rewrite Etv.
    - exists m'. split; [|split; assumption]. intros temp Htemp. rewrite <- E. unfold fill. apply run_in_ext.
      intros q s Hq. apply in_points in Hq. rewrite Htemp by now apply rank_range. reflexivity. }
  destruct X as (m' & E & Hsb & Hr').
  exists m', gs, f. split; [assumption|]. split; [|split; [exact Hsb|]].
  - rewrite Eq. eapply var_done; try eassumption.
    unfold starved in Hst. destruct (fails _ _); [destruct Hst; reflexivity|reflexivity].
  - destruct Hr' as (T1 & T2 & T3 & T4). split; [assumption|]. split; [assumption|]. split; [assumption|].
    eapply holds_ext; [|exact T4]. intros n q _ _. cbv beta.
    destruct ((n =? nn) && in_boxb (corner ss) q) eqn:Eb; [|reflexivity].
    apply andb_true_iff in Eb. destruct Eb as [_ Eb]. apply in_boxb_iff in Eb. symmetry. exact (Etv q Eb).
Qed.
End Call.
End Read.
