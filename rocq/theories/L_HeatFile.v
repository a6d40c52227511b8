(** The file written by Example_D2_heat. *)

From Coq Require Import ZArith Ascii String List Bool Lia.
From Verif Require Import Base M_Flags M_Loop M_RS1 M_RS2 M_RS3 M_Bytes M_TecZone M_TecFile M_LogFiles M_Client M_Examples Spec_Tec Spec_Plt Spec_Xml Spec_LogFiles L_TecZone L_TecMin L_TecProp L_XmlRead L_LogFiles L_LogSession
  M_Heap M_PD1 M_PD2 M_PD3 M_World M_Read M_Describe M_Output M_HeatFile
  Spec Spec_Loop Spec_Array Spec_Hist Spec_Reach Spec_Client Spec_Read Spec_Describe Spec_Output Spec_HeatFile
  L_Base L_RS L_Range L_Loop L_Heap L_Lin L_Rep L_PD1 L_PD2 L_PD3 L_Kind L_World L_Access L_Life L_Copies L_Round L_Describe L_Output L_Client L_Examples.
Import ListNotations.
Open Scope list_scope.
Open Scope Z_scope.

Ltac char_list := let c := fresh in let H := fresh in intros c H; cbn [list_ascii_of_string In] in H; repeat (destruct H as [<-|H]; [vm_compute; intuition congruence|]); destruct H.
Ltac not_blank := let C := fresh in intros C; let X := fresh in pose proof (C _ (or_introl eq_refl)) as X; vm_compute in X; intuition congruence.
Ltac name_ex c r := exists c, r; split; [reflexivity|]; split; [vm_compute; intuition congruence|char_list].
Ltac all_ex t := repeat (apply Forall_cons; [t|]); apply Forall_nil.

Section HeatFile.
Context {V : Type}.
Implicit Types (w : world V) (aw : aworld V).

(** ** The block of a registered component *)

Lemma block_element F h w aw a k o n wd (enc : V -> bytes) mem z q v :
  after F h w aw -> healthy aw a -> find w a = Some (k, o) -> o_data o <> Null -> 0 <= n < k_N k ->
  image w k o n wd enc mem -> 0 < wd -> zone_fits z -> org_count z * wd <= Z.of_nat (length mem) ->
  takes_interior (k_locs k) (m_size o) z -> Forall (fun x => 0 < x) (inner (k_locs k) (m_size o)) ->
  in_box (corner (inner (k_locs k) (m_size o))) q -> reads w k o n q (Some v) ->
  element wd (block_of z wd mem) (rank (inner (k_locs k) (m_size o)) q) = enc v.
Proof.
  intros HA HH Hf Hd Hn Himg Hwp Hfit Hlen Htk Hpos Hq Hrd.
  destruct (after_find _ _ _ _ _ _ _ HA Hf) as (x & own & lk & Ha & HN & Hr & _).
  destruct x as [|gs f|gs nb]; [destruct Hd; eapply data_null; eauto| |destruct (HH _ _ _ Ha)].
  pose proof (rep_size _ _ _ _ _ Hr) as Zs. cbn [a_shape] in Zs. pose proof Hr as ((HL & HSh & _) & _).
  rewrite Zs in *.
  rewrite (zone_element (k_locs k) gs z (k_dims k) HL HSh Hpos Htk wd mem q Hfit Hwp Hlen Hq).
  apply (reads_rep w k o gs f (own a) n q (Some v) HN Hr) in Hrd. destruct Hrd as (_ & Hqs & Ev).
  destruct Himg as (bb & c & Ed & Him).
  rewrite (data_pt_ok false k (heap w) o gs f (own a) n HN Hr Hn) in Ed. injection Ed as <- <-.
  rewrite Zs in Him. pose proof (lin_bounds (slot_box gs (k_locs k)) q 0 1 ltac:(lia) Hqs) as Hb1.
  apply (Him (lin (slot_box gs (k_locs k)) 0 q) v); [lia|].
  destruct Hr as (_ & _ & _ & Hh). pose proof (holds_load _ _ _ _ _ n q Hh Hn Hqs) as Hld. rewrite <- Ev in Hld.
  cbn [cell_of] in Hld. rewrite <- Hld. do 2 f_equal. unfold sbox. rewrite (lin_acc _ n) by assumption. reflexivity.
Qed.

(** ** Arrays by shape *)

Lemma held F h w aw sh f a k gs : after F h w aw -> at_st sh f aw -> sh a = Some (k, gs) ->
  exists o, find w a = Some (k, o) /\ m_size o = gs /\ o_data o <> Null /\
    forall chk n, 0 <= n < k_N k -> exists p, m_data_pt chk k (heap w) o n = Ok p /\ m_data_pt true k (heap w) o n = Ok p.
Proof.
  intros HA (_ & Hs & _) Ea. specialize (Hs a). rewrite Ea in Hs. unfold shp in Hs.
  destruct (afind aw a) as [[k' [|gs' g|]]|] eqn:Ef; try discriminate Hs. injection Hs as -> ->.
  destruct (after_rel _ _ _ _ HA) as (own & lk & HR). pose proof (r_arr _ _ _ _ _ HR a) as Ho.
  rewrite Ef in Ho. unfold entry_ok in Ho. destruct (find w a) as [[k' o]|] eqn:Eo; [|contradiction].
  destruct Ho as (<- & HN & Hrep). exists o. split; [reflexivity|].
  split; [exact (rep_size _ _ _ _ _ Hrep)|]. split.
  - destruct (rep_data _ _ _ _ _ Hrep) as (b & ->). discriminate.
  - intros chk n Hn. eexists. split; (eapply data_pt_ok; eauto).
Qed.

Lemma tame_frees (h : list (op V)) a : Forall tame h -> forall c, In c h -> frees c a = false.
Proof. intros H c Hc. rewrite Forall_forall in H. apply H in Hc. destruct c; cbn in Hc |- *; try reflexivity; contradiction. Qed.

(** ** The description *)

Section Run.
Variables (F : nat -> bool) (chk strict : bool) (Nx Ny : Z).
Hypothesis HNx : 2 <= Nx.
Hypothesis HNy : 2 <= Ny.
Hypothesis HN : 2 * ((Nx + 2) * (Ny + 2)) < UINT_MOD.

Let K := K2 2 center center.
Let G := [(1, Nx, 1); (1, Ny, 1)].
Let sh := shapes_of [(K, G); (K, G); (K2 1 center center, [(0, Nx, 0); (0, Ny, 0)])].

Definition hz (e : Z) (ds : list tdata) : zone :=
  mkZone "untitled_zone" (-1) 0 (mk3 (Ny + 2) (Nx + 2) 1) (mk3 1 1 1) (mk3 1 1 0) (mk3 1 1 0) [] ds e.
Definition hf (e : Z) (zs : list zone) : tfile :=
  mkFile "." "untitled_file" "untitled" ["x"; "y"; "u1"; "u2"]%string 0 [] zs e.
Definition href (p : ptr) : tref := mkRef TEC_DOUBLE 8 p.

Lemma setup_ok h w aw f : after F h w aw -> at_st sh f aw ->
  exists o0 o1 p0 p1 p2 p3,
    tec_setup chk w = Ok (hf 39 [hz 9 []], [href p0; href p1; href p2; href p3]) /\
    find w 0 = Some (K, o0) /\ m_size o0 = G /\ o_data o0 <> Null /\
    find w 1 = Some (K, o1) /\ m_size o1 = G /\ o_data o1 <> Null /\
    m_data_pt true K (heap w) o0 0 = Ok p0 /\ m_data_pt true K (heap w) o0 1 = Ok p1 /\
    m_data_pt true K (heap w) o1 0 = Ok p2 /\ m_data_pt true K (heap w) o1 1 = Ok p3.
Proof.
  intros HA HP.
  destruct (held F h w aw sh f 0 K G HA HP eq_refl) as (o0 & Hf0 & Hs0 & Hd0 & Hp0).
  destruct (held F h w aw sh f 1 K G HA HP eq_refl) as (o1 & Hf1 & Hs1 & Hd1 & Hp1).
  destruct (Hp0 chk 0 ltac:(cbn; lia)) as (p0 & E0 & E0'). destruct (Hp0 chk 1 ltac:(cbn; lia)) as (p1 & E1 & E1').
  destruct (Hp1 chk 0 ltac:(cbn; lia)) as (p2 & E2 & E2'). destruct (Hp1 chk 1 ltac:(cbn; lia)) as (p3 & E3 & E3').
  exists o0, o1, p0, p1, p2, p3. split; [|repeat split; assumption].
  destruct (describe_reached F h w aw 0 K o0 chk (new_zone "untitled_zone") HA Hf0) as (z & Ez & Hz).
  unfold tec_setup, pt_of. rewrite Hf0, Hf1, Ez, E0, E1, E2, E3. cbn [rbind].
  assert (z = hz 9 []) as ->.
  { rewrite Hs0 in Hz. destruct Hz as (Z1 & Z2 & Z3 & Z4 & Z5 & Z6 & Z7 & Z8 & Z9 & Z10). clear - Z1 Z2 Z3 Z4 Z5 Z6 Z7 Z8 Z9 Z10.
    destruct z as [nm st tm mx sk bg en ax ds ec].
    cbn [G new_zone z_name z_strand z_time z_max z_skip z_begin z_end z_aux z_data z_echo length rev map app skipn list3] in *.
    apply list3_inj in Z1, Z2, Z3. subst. unfold hz.
    replace (1 + Ny + 1) with (Ny + 2) by lia. replace (1 + Nx + 1) with (Nx + 2) by lia. reflexivity. }
  reflexivity.
Qed.

Variables (enc : V -> bytes) (junk : nat -> Z -> bytes).
Hypothesis Henc : encodes CDouble 8 enc junk.

Lemma hz_interior e ds : takes_interior (k_locs K) G (hz e ds).
Proof.
  unfold takes_interior. cbn -[Z.add]. replace (1 + Nx + 1 + 0) with (Nx + 2) by lia. replace (1 + Ny + 1 + 0) with (Ny + 2) by lia.
  repeat split.
Qed.
Lemma hz_count e ds : org_count (hz e ds) = (Ny + 2) * (Nx + 2).
Proof. unfold org_count. cbn [hz z_max M_TecZone.x0 M_TecZone.x1 M_TecZone.x2]. lia. Qed.
Lemma hz_bounds : Nx + 2 <= INT_MAX /\ Ny + 2 <= INT_MAX /\ (Ny + 2) * (Nx + 2) <= INT_MAX.
Proof. assert (4 * (Nx + 2) <= (Nx + 2) * (Ny + 2)) by nia. assert (4 * (Ny + 2) <= (Nx + 2) * (Ny + 2)) by nia. lia. Qed.
Lemma hz_fits e ds : zone_fits (hz e ds).
Proof.
  destruct hz_bounds as (B1 & B2 & B3). split; [|rewrite hz_count; exact B3].
  unfold all_dirs, dir_fits. cbn [hz z_max z_skip z_begin z_end M_TecZone.x0 M_TecZone.x1 M_TecZone.x2]. lia.
Qed.

(** What is known of a component when write_plt is called. *)
Definition good (d : tdata) (val : Z -> Z -> V) : Prop :=
  exists mem, d = mkData TEC_DOUBLE 8 (Some mem) /\ (Ny + 2) * (Nx + 2) * 8 <= Z.of_nat (length mem) /\
    forall e ds i j, 0 <= i < Nx -> 0 <= j < Ny -> element 8 (block_of (hz e ds) 8 mem) (i * Ny + j) = enc (val i j).
Definition source w aw (d : tdata) (val : Z -> Z -> V) : Prop :=
  exists a o n mem, healthy aw a /\ find w a = Some (K, o) /\ m_size o = G /\ o_data o <> Null /\ 0 <= n < 2 /\
    image w K o n 8 enc mem /\ d = mkData TEC_DOUBLE 8 (Some mem) /\ (Ny + 2) * (Nx + 2) * 8 <= Z.of_nat (length mem) /\
    forall i j, 0 <= i < Nx -> 0 <= j < Ny -> reads w K o n [i; j] (Some (val i j)).

Lemma inner_G : inner (k_locs K) G = [Nx; Ny].
Proof. cbn -[Z.add]. now rewrite !Z.add_0_r. Qed.
Lemma in_NxNy i j : 0 <= i < Nx -> 0 <= j < Ny -> in_box (corner [Nx; Ny]) [i; j].
Proof. intros. cbn [corner map]. repeat constructor; cbn; lia. Qed.

Lemma source_good h w aw d val : after F h w aw -> source w aw d val -> good d val.
Proof.
  intros HB (a & o & n & mem & HH & Hf & Hs & Hd & Hn & Himg & -> & Hlen & Hval). exists mem. split; [reflexivity|]. split; [exact Hlen|].
  intros e ds i j Hi Hj.
  pose proof (block_element F h w aw a K o n 8 enc mem (hz e ds) [i; j] (val i j) HB HH Hf Hd Hn Himg ltac:(lia) (hz_fits e ds)) as X.
  rewrite hz_count, Hs, inner_G in X. specialize (X Hlen (hz_interior e ds)).
  cbn [rank product fold_right] in X. replace (i * (Ny * 1) + (j * 1 + 0)) with (i * Ny + j) in X by lia. apply X.
  - repeat constructor; lia.
  - now apply in_NxNy.
  - now apply Hval.
Qed.

Lemma component h1 h2 w w1 aw aw1 f f1 a o n p val :
  after F h1 w aw -> at_st sh f aw -> after F (h1 ++ h2) w1 aw1 -> Forall tame h2 -> at_st sh f1 aw1 ->
  find w a = Some (K, o) -> m_size o = G -> o_data o <> Null -> 0 <= n < 2 -> m_data_pt true K (heap w) o n = Ok p ->
  sh a = Some (K, G) -> (forall i j, 0 <= i < Nx -> 0 <= j < Ny -> f1 a n [i; j] = Some (val i j)) ->
  source w1 aw1 (resolve enc junk (heap w1) (href p)) val.
Proof.
  intros HA HP HB HT HP1 Hf Hs Hd Hn Hp Hsh Hval.
  destruct (registered_stays F h1 h2 w w1 aw aw1 a K o n p enc junk CDouble 8 (href p) HA (proj1 HP a) Hf Hd Hn Hp eq_refl Henc HB
    (tame_frees h2 a HT)) as (Hf1 & HH1 & _ & mem & Em & Himg & Hwf).
  exists a, o, n, mem. split; [exact HH1|]. split; [exact Hf1|]. split; [exact Hs|]. split; [exact Hd|]. split; [exact Hn|]. split; [exact Himg|].
  assert (Er : resolve enc junk (heap w1) (href p) = mkData TEC_DOUBLE 8 (Some mem)).
  { unfold resolve in *. cbn [d_mem href rf_type rf_size rf_ptr] in *. now rewrite Em. }
  split; [exact Er|]. split.
  { rewrite Hs in Hwf. destruct (Hwf (hz 0 []) (hz_interior 0 [])) as [_ X]. specialize (X mem Em).
    rewrite hz_count in X. rewrite Er in X. exact X. }
  intros i j Hi Hj.
  assert (U : usable sh (Elt a n [i; j] [FC; FC])).
  { exists K, G. split; [exact Hsh|]. cbn. unfold accepts. cbn. lia. }
  destruct (at_st_cell F _ _ _ sh f1 (Elt a n [i; j] [FC; FC]) HB HP1 U) as (k' & o' & Hf' & _ & Hr).
  cbn [p_arr p_comp p_at p_fl] in *. rewrite Hf1 in Hf'. injection Hf' as <- <-.
  unfold look in Hr. cbn [p_arr p_comp p_at p_fl] in Hr. rewrite slot2 in Hr. now rewrite (Hval i j Hi Hj) in Hr.
Qed.

Section File.
Variables (d0 d1 d2 d3 : tdata) (v0 v1 v2 v3 : Z -> Z -> V).
Hypothesis H0 : good d0 v0.
Hypothesis H1 : good d1 v1.
Hypothesis H2 : good d2 v2.
Hypothesis H3 : good d3 v3.
Let z := hz 511 [d0; d1; d2; d3].
Let f := hf 127 [z].

Lemma good_wf d v e ds : good d v -> data_wf (hz e ds) d.
Proof.
  intros (mem & -> & Hl & _). split; [right; exists CDouble, (Some mem); reflexivity|].
  intros mem' E. injection E as <-. rewrite hz_count. exact Hl.
Qed.
Lemma hf_wf : file_wf f.
Proof.
  destruct hz_bounds as (B1 & B2 & B3).
  split; [unfold in_int; cbn; lia|]. split; [cbn; lia|]. split; [cbn; lia|]. constructor; [|constructor].
  split; [unfold all_dirs, dir_ints; cbn [z hz z_max z_skip z_begin z_end M_TecZone.x0 M_TecZone.x1 M_TecZone.x2]; unfold in_int; lia|].
  split; [unfold all_dirs; cbn [z hz z_max z_skip z_begin z_end M_TecZone.x0 M_TecZone.x1 M_TecZone.x2]; lia|].
  split; [unfold z; rewrite hz_count; exact B3|]. split; [unfold in_int; cbn; lia|]. split; [cbn; lia|].
  change (z_data z) with [d0; d1; d2; d3]. do 4 (apply Forall_cons; [eapply good_wf; eassumption|]). apply Forall_nil.
Qed.
Lemma hz_samples e ds : samples_of (hz e ds) = [Ny; Nx; 1].
Proof.
  rewrite (zone_samples (k_locs K) G (hz e ds) (k_dims K) eq_refl).
  - cbn -[Z.add]. now rewrite !Z.add_0_r.
  - destruct hz_bounds as (B1 & B2 & B3). repeat constructor; unfold shape_ok; lia.
  - repeat constructor; cbn; lia.
  - apply hz_interior.
Qed.
Lemma hz_block e ds size mem : (Ny + 2) * (Nx + 2) * size <= Z.of_nat (length mem) -> 0 < size ->
  Z.of_nat (length (block_of (hz e ds) size mem)) = Nx * Ny * size.
Proof.
  intros Hl Hs. pose proof (hz_fits e ds) as Hfit. pose proof (hz_samples e ds) as Hsamp.
  rewrite (block_length (hz e ds) size mem Hfit Hs) by (rewrite hz_count; exact Hl). destruct Hfit as ((D0 & D1 & D2) & _).
  destruct (dir_real _ _ _ _ D0) as (P0 & _ & _ & _ & S0). destruct (dir_real _ _ _ _ D1) as (P1 & _ & _ & _ & S1).
  destruct (dir_real _ _ _ _ D2) as (P2 & _ & _ & _ & S2). fold (R0 (hz e ds)) (R1 (hz e ds)) (R2 (hz e ds)) in *.
  unfold samples_of, sampled0, sampled1, sampled2 in Hsamp. rewrite S0, S1, S2, !length_steps, !Z2Nat.id in Hsamp by lia.
  injection Hsamp as -> ->. change (R2 (hz e ds)) with 1. lia.
Qed.
Lemma hf_size : plt_size f < 2 ^ 63.
Proof.
  destruct hz_bounds as (B1 & B2 & B3). unfold plt_size, f. cbn [hf f_title f_vars f_zones f_aux map]. unfold data_size.
  replace (samples_of z) with [Ny; Nx; 1] by (symmetry; apply hz_samples). change (z_data z) with [d0; d1; d2; d3]. cbn [map].
  destruct H0 as (m0 & -> & _), H1 as (m1 & -> & _), H2 as (m2 & -> & _), H3 as (m3 & -> & _).
  cbn [d_type]. change (width TEC_DOUBLE) with 8. cbn [sum fold_right product].
  match goal with |- 16 + ?a + 4 + ?b + ?c + 0 + 4 + _ < _ => assert (a < 1000) by (vm_compute; reflexivity); assert (b < 1000) by (vm_compute; reflexivity); assert (c < 1000) by (vm_compute; reflexivity) end.
  assert (Ny * (Nx * 1 * 1) <= (Ny + 2) * (Nx + 2)) by nia. lia.
Qed.
Lemma hf_accepted : ~ refused f.
Proof.
  intros [H|[H|(z' & [<-|[]] & H)]]; [discriminate H|discriminate H|]. destruct H as [H|[H|[H|(d & Hd & H)]]].
  - unfold some_dir, dir_bad in H. cbn [z hz z_max z_skip z_begin z_end M_TecZone.x0 M_TecZone.x1 M_TecZone.x2] in H. lia.
  - discriminate H.
  - apply H. reflexivity.
  - destruct H0 as (m0 & E0 & _), H1 as (m1 & E1 & _), H2 as (m2 & E2 & _), H3 as (m3 & E3 & _).
    cbn [z hz z_data In] in Hd. destruct Hd as [<-|[<-|[<-|[<-|[]]]]]; [rewrite E0 in H|rewrite E1 in H|rewrite E2 in H|rewrite E3 in H]; discriminate H.
Qed.
Lemma hf_short : short f.
Proof.
  split; [vm_compute; reflexivity|]. split; [vm_compute; reflexivity|]. split; [vm_compute; reflexivity|]. split; [|split].
  - intros [|[|[|[|[|k]]]]] v E; try discriminate E; injection E as <-; vm_compute; reflexivity.
  - constructor.
  - intros [|[|i]] z' E; try discriminate E. injection E as <-. split; [vm_compute; reflexivity|]. split; [constructor|]. intros _. vm_compute. reflexivity.
Qed.

Lemma hf_safe : xml_safe f.
Proof.
  split.
  - unfold xml_plain. cbn [f hf f_name f_path f_title f_vars f_aux f_zones].
    split; [char_list|]. split; [char_list|]. split; [char_list|].
    split; [apply Forall_cons; [name_ex "x"%char ""%string|apply Forall_cons; [name_ex "y"%char ""%string|apply Forall_cons; [name_ex "u"%char "1"%string|
      apply Forall_cons; [name_ex "u"%char "2"%string|apply Forall_nil]]]]|].
    split; [repeat constructor|]. apply Forall_cons; [|apply Forall_nil]. split; [cbn [z hz z_name]; char_list|repeat constructor].
  - unfold contents. cbn [f hf f_path f_title f_aux f_zones map flat_map app z hz z_name z_aux]. all_ex not_blank.
Qed.

Lemma hf_returns e : plenty e -> calm e -> exists s g, write_plt e f = Ret (s, g) tt.
Proof.
  intros [Ho Hm] Hc.
  exact (proj1 (write_defined e f hf_wf hf_size hf_accepted Ho ltac:(intros i k (z' & _ & _ & _ & X); rewrite Hm in X; discriminate X) Hc) hf_short).
Qed.

Lemma hf_written e s g : write_plt e f = Ret (s, g) tt ->
  exists b p, disk s = Some b /\ fl_file g = f /\ parse_plt b = Some p /\ p_vars p = ["x"; "y"; "u1"; "u2"]%string /\
    exists pz, p_zones p = [pz] /\ h_size (pz_head pz) = [Ny; Nx; 1] /\ Forall2 (has_values enc Nx Ny) (pz_vars pz) [v0; v1; v2; v3].
Proof.
  intros E.
  destruct (plt_log e f s g tt hf_wf hf_size E) as (b & p & Eb & Hsh & Hpar & _ & _ & _ & _ & _ & Ef & _). exists b, p.
  split; [exact Eb|]. split; [exact Ef|]. split.
  { apply Hpar. cbn. repeat constructor; unfold no_nul; cbn; intuition discriminate. }
  destruct Hsh as (_ & Ht & Hv & _ & Hz). split; [exact Hv|].
  cbn [f hf f_zones] in Hz. inversion Hz as [|? pz ? ? [Hh Hvs] Hz' E1 E2]; subst. inversion Hz'; subst.
  unfold z in Hh, Hvs. rewrite hz_samples in Hh.
  destruct pz as [hd vs]. cbn [pz_head pz_vars hz z_data] in *.
  do 4 (match type of Hvs with Forall2 _ _ ?l => is_var l; inversion Hvs as [|? ? ? ? ? Hvs']; subst; clear Hvs; rename Hvs' into Hvs end).
  inversion Hvs; subst. eexists. split; [reflexivity|]. split; [reflexivity|]. cbn [pz_vars].
  assert (T : forall d v q, good d v -> shows_var (hz 511 [d0; d1; d2; d3]) d q -> has_values enc Nx Ny q v).
  { intros d v q (mem & -> & Hl & He) (mem' & Em & Et & Ed & _). cbn in Em. injection Em as <-.
    change (width (d_type (mkData TEC_DOUBLE 8 (Some mem)))) with 8 in Ed. unfold has_values. rewrite Ed. split; [exact Et|]. split; [|intros i j; apply He].
    apply hz_block; [exact Hl|lia]. }
  do 4 (apply Forall2_cons; [eapply T; eassumption|]). apply Forall2_nil.
Qed.
End File.

(** ** The run *)

Variables (can : string -> bool) (e : env) (reps : Z) (k : nat) (xf yf : Z -> V) (ini exact : V -> V -> V) (neg : V -> V)
  (lapx : V -> V -> V -> V) (lapy : V -> V -> V -> V -> V) (adv : V -> V -> V).
Hypothesis Hreps : 1 <= reps < UINT_MOD.
Hypothesis HF : forall t, (t < 6)%nat -> F t = false.
Hypothesis Hplenty : plenty e.
Hypothesis Hcalm : calm e.
Hypothesis Hcan : can "./untitled_file.xml"%string = true.

Let val (v : nat) (i j : Z) : V :=
  match v with
  | 0%nat => xf i
  | 1%nat => yf j
  | 2%nat => Nat.iter k (heat_step2 Nx Ny neg lapx lapy adv) (fun i j => ini (xf i) (yf j)) i j
  | _ => exact (xf i) (yf j)
  end.

Lemma run_ok (d : files) :
  exists h w aw d0 d1 d2 d3 st1 st2 s g, let f := hf 127 [hz 511 [d0; d1; d2; d3]] in
    heat2_file chk strict enc junk can e Nx Ny reps k xf yf ini exact neg lapx lapy adv (start F, (d, fun _ => no_log)) = Ret (w, st2) tt /\
    after F h w aw /\ source w aw d0 (val 0) /\ source w aw d1 (val 1) /\ source w aw d2 (val 2) /\ source w aw d3 (val 3) /\
    write_plt e f = Ret (s, g) tt /\
    do_call can (CPlt 0 e f) (d, fun _ => no_log) = Ret st1 tt /\ do_call can (CXml 0 0) st1 = Ret st2 tt /\
    fst st2 "./untitled_file.plt"%string = disk s /\
    forall q, q <> "./untitled_file.plt"%string -> q <> "./untitled_file.xml"%string -> fst st2 q = d q.
Proof.
  destruct (arrays2_ok (V := V) F chk Nx Ny HNx HNy HN HF [] (start F) a_start (after_start F) eq_refl)
    as (h1 & w & aw & [] & E1 & [HA _] & f & HP).
  cbn [app] in HA. fold K G sh in HP.
  destruct (setup_ok h1 w aw f HA HP) as (o0 & o1 & p0 & p1 & p2 & p3 & Es & Hf0 & Hs0 & Hd0 & Hf1 & Hs1 & Hd1 & Ep0 & Ep1 & Ep2 & Ep3).
  destruct (solve2_ok F chk Nx Ny HNx HNy HN xf yf ini exact neg lapx lapy adv reps k f Hreps h1 w aw HA HP)
    as (h2 & w1 & aw1 & [] & E2 & [HB HT] & f1 & HP1 & [HX HU] & HE).
  fold K G sh in HP1.
  pose proof (component h1 h2 w w1 aw aw1 f f1 0 o0 0 p0 (val 0) HA HP HB HT HP1 Hf0 Hs0 Hd0 ltac:(lia) Ep0 eq_refl
    (fun i j Hi Hj => proj1 (HX i j Hi Hj))) as S0.
  pose proof (component h1 h2 w w1 aw aw1 f f1 0 o0 1 p1 (val 1) HA HP HB HT HP1 Hf0 Hs0 Hd0 ltac:(lia) Ep1 eq_refl
    (fun i j Hi Hj => proj2 (HX i j Hi Hj))) as S1.
  pose proof (component h1 h2 w w1 aw aw1 f f1 1 o1 0 p2 (val 2) HA HP HB HT HP1 Hf1 Hs1 Hd1 ltac:(lia) Ep2 eq_refl HU) as S2.
  pose proof (component h1 h2 w w1 aw aw1 f f1 1 o1 1 p3 (val 3) HA HP HB HT HP1 Hf1 Hs1 Hd1 ltac:(lia) Ep3 eq_refl HE) as S3.
  set (d0 := resolve enc junk (heap w1) (href p0)) in *. set (d1 := resolve enc junk (heap w1) (href p1)) in *.
  set (d2 := resolve enc junk (heap w1) (href p2)) in *. set (d3 := resolve enc junk (heap w1) (href p3)) in *.
  pose proof (source_good _ _ _ _ _ HB S0) as G0. pose proof (source_good _ _ _ _ _ HB S1) as G1.
  pose proof (source_good _ _ _ _ _ HB S2) as G2. pose proof (source_good _ _ _ _ _ HB S3) as G3.
  destruct (hf_returns d0 d1 d2 d3 _ _ _ _ G0 G1 G2 G3 e Hplenty Hcalm) as (s & g & Ew).
  destruct (hf_written d0 d1 d2 d3 _ _ _ _ G0 G1 G2 G3 e s g Ew) as (b & p & Eb & Eg & _).
  set (ff := hf 127 [hz 511 [d0; d1; d2; d3]]) in *.
  set (st1 := (after_plt ff s d, set_log 0 g (fun _ => no_log)) : files * logs).
  assert (Ec : do_call can (CPlt 0 e ff) (d, fun _ => no_log) = Ret st1 tt).
  { cbn [do_call fst snd]. rewrite Ew. reflexivity. }
  assert (El : snd st1 0%nat = g) by reflexivity.
  assert (En : log_file Xml (snd st1 0%nat) = "./untitled_file.xml"%string).
  { rewrite El. unfold log_file. rewrite Eg. reflexivity. }
  destruct (log_written [(can, CPlt 0 e ff)] (fst st1) (snd st1) can Xml 0 0) as (d' & t & n & Ex & _ & _ & _ & Ho).
  { split.
    - apply Forall_cons; [|apply Forall_nil]. cbn [snd fair]. split; [apply (hf_wf d0 d1 d2 d3 _ _ _ _ G0 G1 G2 G3)|apply (hf_size d0 d1 d2 d3 _ _ _ _ G0 G1 G2 G3)].
    - exists d. exact (eq_trans (do_calls_cons can _ [] _) (f_equal (fun o => match L_LogFiles.outcome o with Some st' => do_calls [] st' | None => None end) Ec)). }
  { lia. }
  { rewrite En. exact Hcan. }
  rewrite En in Ho. cbn [log_call] in Ex.
  change (fst st1, snd st1) with st1 in Ex.
  exists (h1 ++ h2), w1, aw1, d0, d1, d2, d3, st1, (d', snd st1), s, g. cbv zeta. fold ff.
  split; [|split; [exact HB|]].
  - unfold heat2_file, on_arrays. unfold bind at 1. unfold on_fst at 1. rewrite E1.
    unfold bind at 1. unfold on_fst at 1. unfold lift at 1. rewrite Es.
    unfold bind at 1. unfold on_fst at 1. rewrite E2.
    unfold tec_output. cbn [fst snd].
    replace (set_echo_mode strict "full" "full" (hf 39 [hz 9 []])) with (Ret (hf 127 [hz 511 []]) tt : out tfile unit) by (destruct strict; reflexivity).
    unfold on_disk. cbn [fst snd].
    change (fill enc junk (heap w1) (hf 127 [hz 511 []]) (fun _ => [href p0; href p1; href p2; href p3])) with ff.
    unfold bind. rewrite Ec, Ex. reflexivity.
  - split; [exact S0|]. split; [exact S1|]. split; [exact S2|]. split; [exact S3|]. split; [exact Ew|]. split; [exact Ec|]. split; [exact Ex|].
    cbn [fst]. split.
    + rewrite Ho by discriminate. cbn [st1 fst]. unfold after_plt. rewrite Eb. reflexivity.
    + intros q Hq1 Hq2. rewrite Ho by exact Hq2. cbn [st1 fst]. unfold after_plt. rewrite Eb. unfold M_LogFiles.store.
      destruct (String.eqb_spec q (c_str (plt_name ff))) as [Eq|]; [|reflexivity]. destruct Hq1. exact Eq.
Qed.

Lemma heat_file (d : files) :
  exists w d' l b p z,
    heat2_file chk strict enc junk can e Nx Ny reps k xf yf ini exact neg lapx lapy adv (start F, (d, fun _ => no_log)) = Ret (w, (d', l)) tt /\
    d' "./untitled_file.plt"%string = Some b /\ parse_plt b = Some p /\ p_vars p = ["x"; "y"; "u1"; "u2"]%string /\ p_zones p = [z] /\
    h_size (pz_head z) = [Ny; Nx; 1] /\ Forall2 (has_values enc Nx Ny) (pz_vars z) [val 0; val 1; val 2; val 3] /\
    forall q, q <> "./untitled_file.plt"%string -> q <> "./untitled_file.xml"%string -> d' q = d q.
Proof.
  destruct (run_ok d) as (h & w & aw & d0 & d1 & d2 & d3 & st1 & [d' l] & s & g & X). cbv zeta in X.
  destruct X as (E & HA & S0 & S1 & S2 & S3 & Ew & _ & _ & Hp & Ho). cbn [fst] in *.
  pose proof (source_good _ _ _ _ _ HA S0) as G0. pose proof (source_good _ _ _ _ _ HA S1) as G1.
  pose proof (source_good _ _ _ _ _ HA S2) as G2. pose proof (source_good _ _ _ _ _ HA S3) as G3.
  destruct (hf_written d0 d1 d2 d3 _ _ _ _ G0 G1 G2 G3 e s g Ew) as (b & p & Eb & _ & Hb & Hv & z & Hz & Hs & Hvals).
  exists w, d', l, b, p, z. rewrite Hp. auto 10.
Qed.

Lemma heat_load {V2} (d : files) w d' l chk2 (of_float of_double : bytes -> option V2) (cast : V -> V2)
    F2 h2 (w2 : world V2) (aw2 : aworld V2) a2 k2 o2 n2 v name live :
  heat2_file chk strict enc junk can e Nx Ny reps k xf yf ini exact neg lapx lapy adv (start F, (d, fun _ => no_log)) = Ret (w, (d', l)) tt ->
  plain_text (e_begin e) ->
  (forall bs, Z.of_nat (length bs) = 8 -> of_double bs <> None) -> (forall x, of_double (enc x) = Some (cast x)) ->
  after F2 h2 w2 aw2 -> healthy aw2 a2 -> find w2 a2 = Some (k2, o2) -> 0 <= n2 < k_N k2 -> length (k_locs k2) = 2%nat ->
  Forall2 size_in (m_size o2) [Nx; Ny] -> F2 (tick (heap w2)) = false ->
  nth_error ["x"; "y"; "u1"; "u2"]%string v = Some name ->
  exists g' (w2' : world V2) x,
    M_ReadXml.read_log d' "./untitled_file.xml" = Ok g' /\
    m_read_plt chk2 of_float of_double k2 d' "." g' 0 name n2 o2 (heap w2, live) = Ret (heap w2', live) tt /\
    overwritten aw2 w2 w2' k2 a2 o2 n2 [Nx; Ny] x /\
    forall i j, 0 <= i < Nx -> 0 <= j < Ny -> x [i; j] = Some (cast (val v i j)).
Proof.
  intros E Hb Hdec Hcast A2 H2 Hf2 Hn2 HK HS Hmem Hv.
  destruct (run_ok d) as (h & w' & aw & d0 & d1 & d2 & d3 & st1 & st2 & s & g & X). cbv zeta in X.
  destruct X as (E' & HA & S0 & S1 & S2 & S3 & Ew & Ec & Ex & Hp & _). rewrite E in E'. injection E' as <- <-.
  pose proof (source_good _ _ _ _ _ HA S0) as G0. pose proof (source_good _ _ _ _ _ HA S1) as G1.
  pose proof (source_good _ _ _ _ _ HA S2) as G2. pose proof (source_good _ _ _ _ _ HA S3) as G3.
  pose proof (hf_wf d0 d1 d2 d3 _ _ _ _ G0 G1 G2 G3) as Hwf. pose proof (hf_size d0 d1 d2 d3 _ _ _ _ G0 G1 G2 G3) as Hsz.
  destruct (hf_written d0 d1 d2 d3 _ _ _ _ G0 G1 G2 G3 e s g Ew) as (b & p & Eb & Eg & _).
  pose proof (hf_safe d0 d1 d2 d3) as Hsafe.
  set (ff := hf 127 [hz 511 [d0; d1; d2; d3]]) in *.
  destruct (session can can 0 e ff 0 [] [] (d, fun _ => no_log) st1 st1 (d', l) (d', l) Hwf Hsz Hcalm Hsafe Hb) as (s' & g1 & g' & Ew' & Hg & _ & HL).
  { unfold no_nul. cbn. intuition discriminate. } { unfold no_nul. cbn. intuition discriminate. } { lia. }
  { exact Ec. } { reflexivity. } { constructor. } { exact I. } { exact Ex. } { reflexivity. } { exact I. } { exact I. }
  rewrite Ew in Ew'. injection Ew' as <- <-.
  specialize (HL can 1%nat). cbn [do_call fst] in HL.
  destruct (M_ReadXml.read_log d' (name_in ff ".xml")) as [gx| |] eqn:Er; try discriminate HL.
  assert (gx = g').
  { apply (f_equal (fun o : out (files * logs) unit => match o with Ret st _ => snd st 1%nat | _ => gx end)) in HL. exact HL. }
  subst gx. change (name_in ff ".xml") with "./untitled_file.xml"%string in Er.
  assert (Hsrc : exists dv, nth_error (z_data (hz 511 [d0; d1; d2; d3])) v = Some dv /\ source w aw dv (val v)).
  { destruct v as [|[|[|[|v]]]]; cbn [nth_error hz z_data]; [exists d0; split; [reflexivity|exact S0]|exists d1; split; [reflexivity|exact S1]
      |exists d2; split; [reflexivity|exact S2]|exists d3; split; [reflexivity|exact S3]|]. destruct v; discriminate Hv. }
  destruct Hsrc as (dv & Edv & a & o & n & mem & HH & Hf & Hs & Hd & Hn & Himg & -> & _ & Hval).
  assert (Hfirst : Spec_Log.first_at (f_vars ff) name v).
  { split; [exact Hv|]. cbn [ff hf f_vars]. intros i Hi Hc.
    destruct v as [|[|[|[|v]]]]; [lia|..]; try (destruct v; discriminate Hv); cbn in Hv; injection Hv as <-;
      destruct i as [|[|[|i]]]; cbn in Hc; try discriminate Hc; lia. }
  assert (Hpath : d' (Spec_Log.plt_path "." g) = disk s).
  { rewrite <- Hp. cbn [fst]. f_equal. unfold Spec_Log.plt_path. rewrite Eg. reflexivity. }
  pose proof inner_G as HG.
  destruct (round_trip chk2 of_float of_double F h w aw a K o n F2 h2 w2 aw2 a2 k2 o2 n2 8 of_double enc cast mem CDouble
    (mkData TEC_DOUBLE 8 (Some mem)) e ff s g tt 0 (hz 511 [d0; d1; d2; d3]) name v d' "." live) as (w2' & x & Erd & Hov & Hx); try assumption.
  { rewrite Hs, HG. exact HS. } { right. auto. } { reflexivity. } { lia. } { reflexivity. } { rewrite Hs. apply hz_interior. }
  rewrite Hs, HG in *. exists g', w2', x. split; [exact Er|]. split.
  { rewrite <- Erd. now apply same_log_reads. }
  split; [exact Hov|]. intros i j Hi Hj. apply Hx; [now apply in_NxNy|now apply Hval].
Qed.
End Run.
End HeatFile.
