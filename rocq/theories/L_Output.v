(** Lemmas about the output of arrays. *)

From Coq Require Import ZArith Ascii String List Bool Lia.
From Verif Require Import Base M_Flags M_Loop M_Bytes M_TecZone M_TecFile M_Read Spec_Tec Spec_Plt L_Base L_TecZone L_TecMin L_Plt L_Text L_TecWrite L_TecFile
  M_Heap M_PD1 M_PD2 M_PD3 M_World Spec Spec_Loop Spec_Array Spec_Hist Spec_Reach Spec_Read L_Heap L_Lin L_Rep L_PD1 L_PD2 L_PD3 L_Kind L_World L_Access L_Life L_Dead
  M_Output Spec_Output.
Import ListNotations.
Open Scope list_scope.
Open Scope Z_scope.

(** ** The elements stay where they are *)
Section Stay.
Context {V : Type}.
Implicit Types (w : world V) (aw : aworld V) (h : list (op V)).

Lemma find_append w (m : mem V) x a y : find w a = Some y -> find (mkWorld m (objs w ++ [x])) a = Some y.
Proof.
  unfold find. cbn [objs]. intros H. destruct (nth_error (objs w) a) as [[z|]|] eqn:E; try discriminate.
  rewrite nth_error_app1 by (apply nth_error_Some; congruence). now rewrite E.
Qed.

Lemma step_find F h w aw c w' r a k o :
  after F h w aw -> legal aw c -> step true w c = Some (w', r) -> find w a = Some (k, o) -> o_data o <> Null -> frees c a = false ->
  find w' a = Some (k, o).
Proof.
  intros HA HL E Hf Hd Hn.
  assert (HC : forall k' x, construct w k' x = Some (w', r) -> find w' a = Some (k, o)).
  { intros k' x. unfold construct. destruct (x (heap w, m_blank k')) as [[m o'] u|[m o'] e|]; intros X; try discriminate X;
      injection X as <- _; now apply find_append. }
  assert (HO : forall a' f, a' <> a -> on_obj w a' f = Some (w', r) -> find w' a = Some (k, o)).
  { intros a' f Ha. unfold on_obj. destruct (find w a') as [[k' o']|]; [|discriminate].
    destruct (f k' (heap w, o')) as [[m o2] u|[m o2] e|]; intros X; try discriminate X; injection X as <- _;
      rewrite find_on_obj by congruence; exact Hf. }
  assert (HM : forall A (f : M (mem V) A) g, on_mem w f g = Some (w', r) -> find w' a = Some (k, o)).
  { intros A f g. unfold on_mem. destruct (f (heap w)) as [m u|m e|]; intros X; try discriminate X; injection X as <- _; exact Hf. }
  assert (HT : forall d s f, on_two w d s f = Some (w', r) -> find w' a = Some (k, o)).
  { intros d s f. unfold on_two. destruct (find w d) as [[k1 od]|]; [|discriminate]. destruct (find w s) as [[k2 os]|]; [|discriminate].
    destruct (kind_eqb k1 k2); [|discriminate]. apply HM. }
  destruct c; cbn [step] in E; cbn [frees] in Hn.
  - now apply HC in E.
  - now apply HC in E.
  - destruct (Nat.eq_dec a0 a) as [->|N]; [|exact (HO _ _ N E)].
    assert (Hg : shape_arg k gs).
    { destruct (after_find _ _ _ _ _ _ _ HA Hf) as (x & own & lk & Ha & _). cbn [legal] in HL. unfold exists_arr in HL. rewrite Ha in HL. exact HL. }
    pose proof (alloc_occupied F h w aw a k o gs HA Hf Hd Hg) as X. cbn [step] in X. rewrite E in X. injection X as -> _. exact Hf.
  - destruct (Nat.eq_dec a0 a) as [->|N]; [|exact (HO _ _ N E)]. rewrite Nat.eqb_refl in Hn. cbn [andb] in Hn.
    assert (Hg : shape_arg k gs).
    { destruct (after_find _ _ _ _ _ _ _ HA Hf) as (x & own & lk & Ha & _). cbn [legal] in HL. unfold exists_arr in HL. rewrite Ha in HL. exact HL. }
    destruct (bad_dim 0 gs) as [d|] eqn:Eb; [|discriminate].
    pose proof (proj1 (realloc_refused F h w aw a k o gs HA Hf Hg) d Eb) as X. cbn [step] in X. rewrite E in X. injection X as -> _. exact Hf.
  - apply Nat.eqb_neq in Hn. exact (HO _ _ Hn E).
  - apply Nat.eqb_neq in Hn. destruct (on_obj w a0 m_dtor) as [[w1 r1]|] eqn:E1; [|discriminate]. destruct r1; try discriminate.
    injection E as <- _. revert E1. unfold on_obj. destruct (find w a0) as [[k' o']|]; [|discriminate].
    destruct (m_dtor k' (heap w, o')) as [[m o2] u|[m o2] e|]; intros X; try discriminate X; injection X as <-;
      cbn [heap objs]. 
    rewrite <- Hf. etransitivity; [exact (find_on_obj (mkWorld m (set_obj (objs w) a0 (Some (k', o2)))) a0 None m a ltac:(congruence))|].
    exact (find_on_obj w a0 (Some (k', o2)) m a ltac:(congruence)).
  - destruct (find w a0) as [[? ?]|]; [|discriminate]. injection E as <- _. exact Hf.
  - destruct (find w a0) as [[? ?]|]; [|discriminate]. exact (HM _ _ _ E).
  - destruct (find w a0) as [[? ?]|]; [|discriminate]. exact (HM _ _ _ E).
  - destruct (find w a0) as [[? ?]|]; [|discriminate]. exact (HM _ _ _ E).
  - destruct (find w a0) as [[? ?]|]; [|discriminate]. exact (HM _ _ _ E).
  - exact (HT _ _ _ E).
  - exact (HT _ _ _ E).
  - exact (HT _ _ _ E).
  - exact (HT _ _ _ E).
  - destruct (find w a0) as [[? ?]|]; [|discriminate]. exact (HM _ _ _ E).
Qed.

Lemma after_split F h1 h2 w aw w1 aw1 :
  after F h1 w aw -> after F (h1 ++ h2) w1 aw1 -> legal_run F aw h2 /\ exists rs, exec true w h2 = Some (w1, rs).
Proof.
  intros (A1 & -> & rs & E1) (B1 & _ & rs2 & E2). apply legal_run_app in B1. split; [apply B1|].
  rewrite exec_app, E1 in E2. destruct (exec true w h2) as [[w2 rs3]|]; [|discriminate]. injection E2 as -> _. eauto.
Qed.

Lemma after_next F h w aw c h2 w1 aw1 :
  after F h w aw -> after F (h ++ c :: h2) w1 aw1 ->
  exists w' r, legal aw c /\ step true w c = Some (w', r) /\ after F (h ++ [c]) w' (fst (astep F aw c)) /\ after F ((h ++ [c]) ++ h2) w1 aw1.
Proof.
  intros HA HB. destruct (after_split _ _ _ _ _ _ _ HA HB) as [HL _]. cbn [legal_run] in HL. destruct HL as [Hc _].
  destruct (after_step F h w aw c HA Hc) as (w' & E & H'). exists w', (snd (astep F aw c)). conjs; auto.
  rewrite <- app_assoc. exact HB.
Qed.

Lemma run_find F h2 : forall h w aw w1 aw1 a k o,
  after F h w aw -> after F (h ++ h2) w1 aw1 -> find w a = Some (k, o) -> o_data o <> Null ->
  (forall c, In c h2 -> frees c a = false) -> find w1 a = Some (k, o).
Proof.
  induction h2 as [|c h2 IH]; intros h w aw w1 aw1 a k o HA HB Hf Hd Hn.
  - rewrite app_nil_r in HB. destruct HA as (_ & _ & rs & E), HB as (_ & _ & rs' & E'). congruence.
  - destruct (after_next _ _ _ _ _ _ _ _ HA HB) as (w' & r & HL & E & HA' & HB').
    refine (IH _ _ _ _ _ a k o HA' HB' _ Hd _); [|intros; apply Hn; now right].
    exact (step_find F h w aw c w' r a k o HA HL E Hf Hd (Hn c (or_introl eq_refl))).
Qed.

Lemma rep_live_not_broken k (m m' : mem V) o gs f bs g nb bs' : rep k m o (ALive gs f) bs -> rep k m' o (ABroken g nb : arr V) bs' -> False.
Proof.
  cbn [rep]. intros (_ & _ & H & _) (_ & _ & H' & _).
  destruct k, o; cbn [liv brk] in H, H'; try contradiction;
  repeat match goal with
  | H : match ?l with [] => _ | _ :: _ => _ end |- _ => destruct l; try contradiction
  end; unfold liv2, brk2, liv3, brk3 in *;
  repeat match goal with H : _ /\ _ |- _ => destruct H end; congruence.
Qed.

Lemma same_healthy F F' h h' w w1 aw aw1 a k o :
  after F h w aw -> after F' h' w1 aw1 -> find w a = Some (k, o) -> find w1 a = Some (k, o) -> o_data o <> Null ->
  healthy aw a -> healthy aw1 a.
Proof.
  intros HA HB Hf Hf1 Hd HH k' gs nb E.
  destruct (after_find _ _ _ _ _ _ _ HA Hf) as (x & own & lk & Ha & _ & Hr & _).
  destruct (after_find _ _ _ _ _ _ _ HB Hf1) as (y & own1 & lk1 & Ha1 & _ & Hr1 & _).
  rewrite E in Ha1. injection Ha1 as -> <-. destruct x as [|g f|g n].
  - apply Hd. now apply (data_null _ _ _ _ _ Hr).
  - eapply rep_live_not_broken; eassumption.
  - eapply HH; eassumption.
Qed.

(** *** The bytes *)
Variables (enc : V -> bytes) (junk : nat -> Z -> bytes) (wd : Z).
Hypothesis Henc : forall v, Z.of_nat (length (enc v)) = wd.
Hypothesis Hjunk : forall b i, Z.of_nat (length (junk b i)) = wd.

Lemma length_cell b i c : Z.of_nat (length (cell_bytes enc junk b i c)) = wd.
Proof. destruct c; cbn [cell_bytes]; auto. Qed.

Lemma length_cells b cs : forall i, Z.of_nat (length (cells_bytes enc junk b i cs)) = Z.of_nat (length cs) * wd.
Proof.
  induction cs as [|c cs IH]; intros i; cbn [cells_bytes length]; [lia|]. rewrite app_length, Nat2Z.inj_add, IH, length_cell. lia.
Qed.

Lemma wd_pos : 0 <= wd.
Proof. rewrite <- (Hjunk O 0). lia. Qed.

Lemma element_cells b cs : forall j i c,
  nth_error cs j = Some c -> element wd (cells_bytes enc junk b i cs) (Z.of_nat j) = cell_bytes enc junk b (i + Z.of_nat j) c.
Proof.
  pose proof wd_pos as Hw. unfold element.
  induction cs as [|c0 cs IH]; intros [|j] i c H; cbn [nth_error] in H; try discriminate.
  - injection H as ->. cbn [cells_bytes]. change (Z.of_nat 0 * wd) with 0. cbn [Z.to_nat skipn]. rewrite firstn_app.
    pose proof (length_cell b i c) as E. replace (Z.to_nat wd) with (length (cell_bytes enc junk b i c)) by lia.
    rewrite firstn_all, Nat.sub_diag. cbn [firstn]. rewrite app_nil_r. f_equal. lia.
  - cbn [cells_bytes]. pose proof (length_cell b i c0) as E. rewrite skipn_app.
    rewrite skipn_all2 by nia. cbn [app].
    replace (Z.to_nat (Z.of_nat (S j) * wd) - length (cell_bytes enc junk b i c0))%nat with (Z.to_nat (Z.of_nat j * wd)) by nia.
    rewrite IH with (c := c) by assumption. f_equal. lia.
Qed.

Lemma skipn_nth {A} (l : list A) : forall n k, nth_error (skipn n l) k = nth_error l (n + k).
Proof. induction l as [|x l IH]; intros [|n] k; cbn; auto. destruct k; reflexivity. Qed.

(** What write_plt finds at the pointer of an array that is still there. *)
Lemma pointee_image F h w aw a k o n p :
  after F h w aw -> healthy aw a -> find w a = Some (k, o) -> o_data o <> Null -> 0 <= n < k_N k ->
  m_data_pt true k (heap w) o n = Ok p ->
  exists mem, pointee enc junk (heap w) p = Some mem /\ image w k o n wd enc mem /\
    vol (slot_box (m_size o) (k_locs k)) * wd <= Z.of_nat (length mem).
Proof.
  intros HA HH Hf Hd Hn Hp. destruct (after_find _ _ _ _ _ _ _ HA Hf) as (x & own & lk & Ha & HN & Hr & HR).
  destruct x as [|gs f|gs nb]; [destruct Hd; now apply (data_null _ _ _ _ _ Hr)| |destruct (HH _ _ _ Ha)].
  pose proof (rep_size _ _ _ _ _ Hr) as Hs. cbn in Hs.
  pose proof (fun chk => data_pt_ok chk k (heap w) o gs f (own a) n HN Hr Hn) as E. rewrite E in Hp. injection Hp as <-.
  pose proof Hr as (_ & Hv & _ & (cs & Hb & Hl & _)). set (b := hd O (own a)) in *. set (v := vol (sbox k gs)) in *.
  unfold pointee. rewrite Hb. assert (H0 : 0 <= n * v) by nia. destruct (0 <=? n * v) eqn:E0; zcmp; [|lia].
  eexists. split; [reflexivity|]. pose proof wd_pos as Hw.
  assert (Hvol : vol (slot_box (m_size o) (k_locs k)) = v) by now rewrite Hs. rewrite Hvol. split.
  - exists b, (n * v). split; [apply E|]. rewrite Hvol. intros i val Hi HL. cbn [load] in HL. rewrite Hb in HL.
    destruct (0 <=? n * v + i) eqn:E1; [|discriminate].
    destruct (nth_error cs (Z.to_nat (n * v + i))) as [c|] eqn:Ec; [|discriminate]. injection HL as ->.
    rewrite <- (Z2Nat.id i) by lia. rewrite (element_cells b (skipn (Z.to_nat (n * v)) cs) (Z.to_nat i) (n * v) (CVal val)); [reflexivity|].
    rewrite skipn_nth. replace (Z.to_nat (n * v) + Z.to_nat i)%nat with (Z.to_nat (n * v + i)) by lia. exact Ec.
  - rewrite length_cells, skipn_length. assert (n * v + v <= k_N k * v) by nia. nia.
Qed.

(** *** After the end of its life *)
Lemma owned_data o b : o_data o = Ptr b 0 -> In b (owned o).
Proof. destruct o; cbn [o_data owned]; intros ->; now left. Qed.

Lemma step_frees F h w aw c w' r a k o b :
  after F h w aw -> legal aw c -> step true w c = Some (w', r) -> find w a = Some (k, o) -> o_data o = Ptr b 0 -> frees c a = true ->
  block (heap w') b = None.
Proof.
  intros HA HL E Hf Hd Hn.
  destruct (after_find _ _ _ _ _ _ _ HA Hf) as (x & own & lk & Ha & HN & Hr & HR).
  pose proof (owned_data _ _ Hd) as Hin.
  destruct c; cbn [frees] in Hn; try discriminate Hn.
  - apply andb_prop in Hn as [Hn Hb]. apply Nat.eqb_eq in Hn. subst a0. destruct (bad_dim 0 gs) eqn:Eb; [discriminate|].
    assert (Hg : shape_arg k gs) by (cbn [legal] in HL; unfold exists_arr in HL; rewrite Ha in HL; exact HL).
    pose proof (realloc_run F h w aw a k o gs HA Hf ltac:(congruence) Hg Eb) as X.
    destruct (a_alloc F (tick (heap w)) k gs) as [[t y] r']. destruct X as (m' & o' & bs & E' & Hr' & HG).
    rewrite E in E'. injection E' as -> _. cbn [heap].
    assert (Hk : block (kill (heap w) (owned o)) b = None).
    { rewrite kill_block. destruct (in_dec Nat.eq_dec b (owned o)); [reflexivity|contradiction]. }
    destruct HG as (_ & _ & _ & HG). rewrite HG; [exact Hk|].
    rewrite kill_blocks.
    rewrite (rep_owned _ _ _ _ _ Hr) in Hin. pose proof (rep_live _ _ _ _ _ _ Hr Hin) as HB.
    destruct (block (heap w) b) eqn:EB; [|congruence]. eapply block_some_lt; exact EB.
  - apply Nat.eqb_eq in Hn. subst a0. destruct (clear_frees F h w aw a k o HA Hf ltac:(congruence)) as (w2 & o2 & E2 & _ & _ & _ & _ & _ & X & _).
    rewrite E in E2. injection E2 as -> _. now apply X.
  - apply Nat.eqb_eq in Hn. subst a0. cbn [step] in E. unfold on_obj in E. rewrite Hf in E.
    destruct (dtor_ok k (heap w) o x (own a) HN Hr) as (o' & Ed). rewrite Ed in E. cbn [heap objs] in E. injection E as <- _. cbn [heap].
    rewrite kill_block, <- (rep_owned _ _ _ _ _ Hr). destruct (in_dec Nat.eq_dec b (owned o)); [reflexivity|contradiction].
Qed.

Lemma run_dead F h2 : forall h w aw w1 aw1 a k o b,
  after F h w aw -> after F (h ++ h2) w1 aw1 -> find w a = Some (k, o) -> o_data o = Ptr b 0 ->
  (exists c, In c h2 /\ frees c a = true) -> block (heap w1) b = None.
Proof.
  induction h2 as [|c h2 IH]; intros h w aw w1 aw1 a k o b HA HB Hf Hd (c' & Hin & Hc); [destruct Hin|].
  destruct (after_next _ _ _ _ _ _ _ _ HA HB) as (w' & r & HL & E & HA' & HB').
  destruct (frees c a) eqn:Ef.
  - pose proof (step_frees _ _ _ _ _ _ _ _ _ _ _ HA HL E Hf Hd Ef) as Hk.
    destruct (after_split _ _ _ _ _ _ _ HA' HB') as (_ & rs & Ex).
    destruct (exec_later _ _ _ _ _ Ex) as (_ & X). apply X; [|exact Hk].
    destruct (step_later _ _ _ _ _ E) as (Y & _). 
    destruct (after_find _ _ _ _ _ _ _ HA Hf) as (x & own & lk & Ha & HN & Hr & HR).
    pose proof (owned_data _ _ Hd) as Ho. rewrite (rep_owned _ _ _ _ _ Hr) in Ho. pose proof (rep_live _ _ _ _ _ _ Hr Ho) as HB1.
    destruct (block (heap w) b) eqn:EB; [|congruence]. apply block_some_lt in EB. lia.
  - destruct Hin as [->|Hin]; [congruence|].
    refine (IH _ _ _ _ _ a k o b HA' HB' _ Hd _); [|eauto].
    exact (step_find F h w aw c w' r a k o HA HL E Hf ltac:(congruence) Ef).
Qed.

Lemma pointee_gone F h1 h2 w aw w1 aw1 a k o n p :
  after F h1 w aw -> after F (h1 ++ h2) w1 aw1 -> healthy aw a -> find w a = Some (k, o) -> o_data o <> Null -> 0 <= n < k_N k ->
  m_data_pt true k (heap w) o n = Ok p -> (exists c, In c h2 /\ frees c a = true) -> pointee enc junk (heap w1) p = Some [].
Proof.
  intros HA HB HH Hf Hd Hn Hp Hx. destruct (after_find _ _ _ _ _ _ _ HA Hf) as (x & own & lk & Ha & HN & Hr & HR).
  destruct x as [|gs f|gs nb]; [destruct Hd; now apply (data_null _ _ _ _ _ Hr)| |destruct (HH _ _ _ Ha)].
  destruct (rep_data _ _ _ _ _ Hr) as (b & Hb).
  rewrite (data_pt_addr F h1 w aw a k o n b true HA HH Hf Hb Hn) in Hp. injection Hp as <-.
  unfold pointee. now rewrite (run_dead F h2 h1 w aw w1 aw1 a k o b HA HB Hf Hb Hx).
Qed.
End Stay.

(** ** write_plt without memory to read *)

(** Computations that raise nothing; that do not return. *)
Definition nerr {A} (r : res A) : Prop := forall e, r <> Err e.
Definition nok {A} (r : res A) : Prop := forall a, r <> Ok a.
Definition nthr {T A} (m : M T A) : Prop := forall s s' e, m s <> Thr s' e.
Definition nret {T A} (m : M T A) : Prop := forall s s' a, m s <> Ret s' a.

Lemma nerr_ok {A} (a : A) : nerr (Ok a).
Proof. intros e. discriminate. Qed.
Lemma nerr_ub {A} : nerr (@UB A).
Proof. intros e. discriminate. Qed.
Lemma nerr_bind {A B} (r : res A) (k : A -> res B) : nerr r -> (forall a, nerr (k a)) -> nerr (rbind r k).
Proof. intros H1 H2 e. destruct r as [a|e'|]; cbn [rbind]; [apply H2|intros X; injection X as ->; now apply (H1 e)|discriminate]. Qed.
Lemma nok_bind {A B} (r : res A) (k : A -> res B) : (forall a, r = Ok a -> nok (k a)) -> nok (rbind r k).
Proof. intros H a. destruct r as [b|e'|]; cbn [rbind]; [now apply H|discriminate..]. Qed.
Lemma nerr_ck z : nerr (ck z).
Proof. unfold ck. destruct (in_intb z); [apply nerr_ok|apply nerr_ub]. Qed.
Lemma nerr_idiv a b : nerr (idiv a b).
Proof. unfold idiv. destruct (_ =? _); [apply nerr_ub|apply nerr_ck]. Qed.
Lemma nerr_for_lt {A} e s (body : Z -> A -> res A) (H : forall i a, nerr (body i a)) n : forall i a, nerr (for_lt n i e s body a).
Proof.
  induction n as [|n IH]; intros i a; cbn [for_lt]; destruct (i <? e); try apply nerr_ok; try apply nerr_ub.
  apply nerr_bind; [apply H|]. intros a'. apply nerr_bind; [apply nerr_ck|]. intros i'. apply IH.
Qed.
Lemma nerr_for {A} b e s (body : Z -> A -> res A) a : (forall i a, nerr (body i a)) -> nerr (for_ b e s body a).
Proof. intros H. unfold for_. now apply nerr_for_lt. Qed.
Lemma nok_for {A} b e s (body : Z -> A -> res A) a : b < e -> (forall i a, nok (body i a)) -> nok (for_ b e s body a).
Proof.
  intros Hb H. unfold for_. destruct (Z.to_nat (e - b)) as [|n] eqn:E; [lia|]. cbn [for_lt].
  destruct (b <? e) eqn:E1; zcmp; [|lia]. apply nok_bind. intros a' X. now apply H in X.
Qed.
Lemma nerr_memcpy b d s o n : nerr (memcpy b d s o n).
Proof. unfold memcpy. destruct (_ && _); [apply nerr_ok|apply nerr_ub]. Qed.
Lemma nok_memcpy b d o n : 0 < n -> nok (memcpy b d [] o n).
Proof.
  intros H a. unfold memcpy. cbn [length Z.of_nat]. destruct (_ && _) eqn:E; [|discriminate].
  apply andb_prop in E as [E E1]. apply andb_prop in E as [E E2]. zcmp. lia.
Qed.

Ltac ne :=
  repeat first
    [ apply nerr_ok | apply nerr_ub | apply nerr_ck | apply nerr_idiv | apply nerr_memcpy
    | (apply nerr_bind; [|intros ?]) | (apply nerr_for; intros ? ?) ].

Lemma nerr_cut z r size m buf : nerr (cut_buf z r size m buf).
Proof. unfold cut_buf, isub, imul, iadd. ne. Qed.
Lemma nerr_skip z r size m buf : nerr (skip_buf z r size m buf).
Proof. unfold skip_buf, isub, imul, iadd. ne. Qed.

Section Zone.
Variables (z : zone) (d : tdata).
Hypothesis Hz : zone_fits z.
Hypothesis Hd : made d.
Hypothesis Hs : d_mem d <> None.

Lemma made_type : 1 <= d_type d <= 5 /\ d_size d = width (d_type d).
Proof using Hd Hs.
  destruct Hd as [->|(t & m & H)]; [now destruct Hs|]. destruct t; cbn in H; try discriminate; injection H as <-; (split; [cbn; unfold TEC_FLOAT, TEC_DOUBLE, TEC_LONGINT, TEC_SHORTINT, TEC_BYTE; lia|reflexivity]).
Qed.

Lemma nerr_make_buf1 : nerr (make_buf1 z (real_of z) false d).
Proof using All.
  destruct (list3_samples z Hz) as (r & Er & Hl & Em & Ei & Es & Hc). unfold real_of. rewrite Er.
  destruct made_type as [Ht Hw]. pose proof (width_range _ Ht) as Hr.
  unfold make_buf1. destruct (d_mem d) as [m|]; [|apply nerr_ub]. destruct (r_noskip r && r_noexc r); [apply nerr_ok|].
  apply nerr_bind; [|intros b; destruct (r_noskip r); [apply nerr_cut|apply nerr_skip]].
  unfold new_buf. rewrite Ei. cbn [rbind]. rewrite Es, Hw.
  assert (Hb : count z <= INT_MAX).
  { destruct (real_count z Hz) as [_ X]. pose proof (org_bound z Hz) as Y. 
    assert (count z = R0 z * R1 z * R2 z); [|lia]. unfold count. rewrite <- Hl, Em. cbn [list3 product fold_right x0 x1 x2]. ring. }
  assert (Hp : 0 <= count z * width (d_type d) <= INT_MAX * 8) by nia.
  unfold szmul. rewrite Z.mod_small by lia. destruct (_ <? _) eqn:E; [zcmp; lia|]. apply nerr_ok.
Qed.

(** Nothing of an array without memory can be read. *)
Hypothesis Hm : d_mem d = Some [].

Lemma szmul_pos a s : 1 <= a <= INT_MAX -> 1 <= s <= 8 -> 0 < szmul (i2sz a) s.
Proof using. intros. assert (1 <= a * s <= INT_MAX * 8) by nia. unfold szmul, i2sz. rewrite (Z.mod_small a) by lia. rewrite Z.mod_small by lia. lia. Qed.

Lemma nok_make_buf1 oom b : make_buf1 z (real_of z) oom d = Ok b -> b = [].
Proof using All.
  destruct (list3_samples z Hz) as (r & Er & Hl & Em & Ei & Es & Hc). unfold real_of. rewrite Er.
  destruct made_type as [Ht Hw]. pose proof (width_range _ Ht) as Hr.
  unfold make_buf1. rewrite Hm. destruct (r_noskip r && r_noexc r); [intros X; injection X as <-; reflexivity|].
  pose proof Hz as ((D0 & D1 & D2) & Ho). destruct D0 as (A0 & B0 & C0 & E0 & F0), D1 as (A1 & B1 & C1 & E1 & F1), D2 as (A2 & B2 & C2 & E2 & F2).
  destruct (real_count z Hz) as [_ X].
  assert (P : 1 <= R0 z /\ 1 <= R1 z /\ 1 <= R2 z).
  { destruct (fits_ints z Hz) as [Hi Hn]. destruct (gather_size z Hi) as [_ G]. destruct (G Hn) as (r' & Er' & _ & Hp & _).
    rewrite Er in Er'. injection Er' as <-. rewrite <- Hl, Em in Hp. cbn [list3 x0 x1 x2] in Hp.
    inversion Hp as [|? ? P0 Hp1]; subst. inversion Hp1 as [|? ? P1 Hp2]; subst. inversion Hp2 as [|? ? P2 _]; subst. lia. }
  assert (Q : R0 z <= INT_MAX) by nia.
  intros E. exfalso. revert E. enough (N : forall buf, nok (if r_noskip r then cut_buf z (r_max r) (d_size d) [] buf else skip_buf z (r_max r) (d_size d) [] buf)).
  { destruct (new_buf oom (r_max r) (d_size d)); cbn [rbind]; [apply N|discriminate..]. }
  intros buf. destruct (r_noskip r).
  - unfold cut_buf. apply nok_bind. intros e2 H2. apply ck_inv in H2 as [H2 _]. apply nok_for; [lia|]. intros sk bu.
    apply nok_bind. intros e1 H1. apply ck_inv in H1 as [H1 _]. apply nok_for; [lia|]. intros sj bu'.
    repeat (apply nok_bind; intros ? _). apply nok_memcpy. rewrite Em. cbn [x0]. apply szmul_pos; lia.
  - unfold skip_buf. apply nok_bind. intros e2 H2. apply ck_inv in H2 as [H2 _]. apply nok_for; [lia|]. intros sk bu.
    apply nok_bind. intros e1 H1. apply ck_inv in H1 as [H1 _]. apply nok_for; [lia|]. intros sj bu'.
    apply nok_bind. intros e0 H0. apply ck_inv in H0 as [H0 _]. apply nok_for; [lia|]. intros si bu2.
    repeat (apply nok_bind; intros ? _). apply nok_memcpy. lia.
Qed.
End Zone.

(** *** Rules *)
Section Rules.
Context {T : Type}.
Lemma nthr_ret {A} (a : A) : nthr (@ret T A a).
Proof. intros s s' e. discriminate. Qed.
Lemma nthr_undef {A} : nthr (@undef T A).
Proof. intros s s' e. discriminate. Qed.
Lemma nthr_lift {A} (r : res A) : nerr r -> nthr (@lift T A r).
Proof. intros H s s' e. unfold lift. destruct r; try discriminate. intros X. injection X as _ ->. now apply (H e). Qed.
Lemma nthr_bind {A B} (m : M T A) (k : A -> M T B) : nthr m -> (forall s s' a, m s = Ret s' a -> nthr (k a)) -> nthr (bind m k).
Proof.
  intros H1 H2 s s' e. unfold bind. destruct (m s) as [s1 a|s1 e1|] eqn:E; [eapply H2; exact E| |discriminate].
  intros X. injection X as -> ->. now apply H1 in E.
Qed.
Lemma nret_lift {A} (r : res A) : nok r -> nret (@lift T A r).
Proof. intros H s s' e. unfold lift. destruct r; try discriminate. intros X. injection X as _ ->. now apply (H e). Qed.
Lemma nret_bind1 {A B} (m : M T A) (k : A -> M T B) : nret m -> nret (bind m k).
Proof. intros H s s' b. unfold bind. destruct (m s) as [s1 a|s1 e1|] eqn:E; [now apply H in E|discriminate..]. Qed.
Lemma nret_bind2 {A B} (m : M T A) (k : A -> M T B) : (forall s s' a, m s = Ret s' a -> nret (k a)) -> nret (bind m k).
Proof. intros H s s' b. unfold bind. destruct (m s) as [s1 a|s1 e1|] eqn:E; [eapply H; exact E|discriminate..]. Qed.
End Rules.

Section IORules.
Context {L : Type}.
Lemma nthr_put b : nthr (@M_TecFile.put L b).
Proof. intros s s' e. unfold M_TecFile.put. destruct (disk (fst s)); discriminate. Qed.
Lemma nthr_tell : nthr (@tell L).
Proof. intros s s' e. unfold tell. destruct (disk (fst s)); discriminate. Qed.
Lemma nthr_add_live n : nthr (@add_live L n).
Proof. intros s s' e. discriminate. Qed.
Lemma nthr_upd_snd f : nthr (@upd_snd fs L f).
Proof. intros s s' e. discriminate. Qed.
Lemma nthr_get_snd : nthr (@get_snd fs L).
Proof. intros s s' e. discriminate. Qed.
Lemma nthr_for_each {A} (l : list A) f : forall k, (forall k x, In x l -> nthr (f k x)) -> nthr (@for_each L A k l f).
Proof.
  induction l as [|x l IH]; intros k H; cbn [for_each]; [apply nthr_ret|].
  apply nthr_bind; [apply H; now left|intros _ _ _ _; apply IH; intros; apply H; now right].
Qed.
Lemma nret_for_each {A} (l : list A) f : forall k, (exists x, In x l /\ forall k, nret (f k x)) -> nret (@for_each L A k l f).
Proof.
  induction l as [|y l IH]; intros k (x & Hin & H); [destruct Hin|]. cbn [for_each]. destruct Hin as [->|Hin].
  - apply nret_bind1, H.
  - apply nret_bind2. intros _ _ _ _. eauto.
Qed.
Lemma nret_for_each_at {A} (l : list A) f : forall k i x, nth_error l i = Some x -> nret (f (k + i)%nat x) -> nret (@for_each L A k l f).
Proof.
  induction l as [|y l IH]; intros k [|i] x Hi H; try discriminate Hi; cbn [for_each].
  - injection Hi as ->. apply nret_bind1. now rewrite Nat.add_0_r in H.
  - apply nret_bind2. intros _ _ _ _. apply (IH (S k) i x Hi). now rewrite <- Nat.add_succ_comm in H.
Qed.
End IORules.

Lemma nthr_zecho s : nthr (zecho s).
Proof. apply nthr_upd_snd. Qed.
Lemma nthr_zecho_add s : nthr (zecho_add s).
Proof. intros st s' e. unfold zecho_add. destruct (add_last _ _); discriminate. Qed.
Lemma nthr_zdata_upd k f : nthr (zdata_upd k f).
Proof. intros st s' e. unfold zdata_upd. destruct (upd_nth _ _ _); discriminate. Qed.
Lemma nthr_fecho s : nthr (fecho s).
Proof. apply nthr_upd_snd. Qed.
Lemma nthr_fecho_add s : nthr (fecho_add s).
Proof. intros st s' e. unfold fecho_add. destruct (add_last _ _); discriminate. Qed.
Lemma nthr_close : nthr close.
Proof. intros st s' e. discriminate. Qed.
Lemma nthr_on_zone {A} i (m : M (fs * zone_log) A) : nthr m -> nthr (on_zone i m).
Proof.
  intros H st s' e. unfold on_zone. destruct (nth_error _ _); [|discriminate]. destruct (m _) eqn:E; try discriminate.
  now apply H in E.
Qed.
Lemma nret_on_zone {A} i (m : M (fs * zone_log) A) : nret m -> nret (on_zone i m).
Proof.
  intros H st s' e. unfold on_zone. destruct (nth_error _ _); [|discriminate]. destruct (m _) eqn:E; try discriminate.
  now apply H in E.
Qed.

Lemma nerr_sprintf n s : nerr (sprintf n s).
Proof. unfold sprintf. destruct (_ <? _); [apply nerr_ok|apply nerr_ub]. Qed.
Lemma nerr_ints l : nerr (ints_text l).
Proof. induction l as [|x l IH]; cbn [ints_text]; [apply nerr_ok|]. apply nerr_bind; [apply nerr_sprintf|intros]. apply nerr_bind; [exact IH|intros; apply nerr_ok]. Qed.
Lemma nerr_emit l : nerr (emit l).
Proof.
  induction l as [|x l IH]; cbn [emit]; [apply nerr_ok|]. apply nerr_bind; [|intros; apply nerr_bind; [exact IH|intros; apply nerr_ok]].
  induction x as [|p x IHx]; cbn [emit_line]; [apply nerr_ok|].
  apply nerr_bind; [destruct p; [apply nerr_ok|apply nerr_sprintf]|intros; apply nerr_bind; [exact IHx|intros; apply nerr_ok]].
Qed.
Lemma nerr_gen l : nerr (gen_texts l).
Proof.
  unfold gen_texts. apply nerr_bind.
  - induction (fl_zones l) as [|x zs IH]; cbn [map_res]; [apply nerr_ok|].
    apply nerr_bind; [unfold gen_zone, zone_json, zone_xml; do 2 (apply nerr_bind; [apply nerr_emit|intros]); apply nerr_ok|].
    intros; apply nerr_bind; [exact IH|intros; apply nerr_ok].
  - intros zs. unfold file_json, file_xml. do 2 (apply nerr_bind; [apply nerr_emit|intros]). apply nerr_ok.
Qed.
Lemma nerr_peek b o n : nerr (peek b o n).
Proof. unfold peek. destruct (_ && _); [|apply nerr_ub]. destruct (all_some _); [apply nerr_ok|apply nerr_ub]. Qed.
Lemma nerr_elem b w i : nerr (M_TecZone.elem b w i).
Proof. unfold M_TecZone.elem. apply nerr_bind; [apply nerr_peek|intros; apply nerr_ok]. Qed.
Lemma nerr_get_minmax lt data N : (forall i, nerr (data i)) -> nerr (get_minmax lt data N).
Proof.
  intros H. unfold get_minmax. apply nerr_bind; [apply H|intros x]. apply nerr_bind.
  - generalize (Z.to_nat (if negb (N mod 2 =? 0) then (N - 1) / 2 else N / 2)). intros k.
    assert (HL : forall i mn mx, nerr (minmax_loop lt data k i mn mx)); [|apply HL].
    induction k as [|k IH]; intros i mn mx; cbn [minmax_loop]; [apply nerr_ok|].
    apply nerr_bind; [apply H|intros a]. apply nerr_bind; [apply H|intros b]. destruct (lt b a); apply IH.
  - intros [mn mx]. destruct (negb _); [|apply nerr_ok]. apply nerr_bind; [apply H|intros y]. destruct (lt y mn); [apply nerr_ok|].
    destruct (lt mx y); apply nerr_ok.
Qed.
Lemma nerr_minmax t b N : 1 <= t <= 5 -> nerr (minmax t b N).
Proof.
  intros Ht. unfold minmax, TEC_FLOAT, TEC_DOUBLE, TEC_LONGINT, TEC_SHORTINT, TEC_BYTE.
  repeat match goal with |- nerr (if ?c then _ else _) => destruct c eqn:?; zcmp end;
    try (apply nerr_bind; [|intros [? ?]; apply nerr_ok]); try (apply nerr_get_minmax; intros; apply nerr_elem). lia.
Qed.
Lemma nok_elem w i : 0 < w -> nok (M_TecZone.elem [] w i).
Proof.
  intros Hw. unfold M_TecZone.elem. apply nok_bind. intros l H. exfalso. revert H. unfold peek. cbn [length Z.of_nat].
  destruct (_ && _) eqn:E; [|discriminate]. apply andb_prop in E as [E1 E2]. zcmp. lia.
Qed.
Lemma nok_get_minmax lt data N : (forall i, nok (data i)) -> nok (get_minmax lt data N).
Proof. intros H. unfold get_minmax. apply nok_bind. intros x X. now apply H in X. Qed.
Lemma nok_minmax t N : nok (minmax t [] N).
Proof.
  unfold minmax.
  repeat match goal with |- nok (if ?c then _ else _) => destruct c end;
    try (apply nok_bind; intros x X; exfalso; revert X; apply (nok_get_minmax _ _ N)); try apply nok_get_minmax; try (intros; apply nok_elem; lia).
  intros x. discriminate.
Qed.

Ltac nt :=
  repeat first
    [ apply nthr_ret | apply nthr_undef | apply nthr_put | apply nthr_tell | apply nthr_add_live | apply nthr_upd_snd | apply nthr_get_snd
    | apply nthr_zecho | apply nthr_zecho_add | apply nthr_zdata_upd | apply nthr_fecho | apply nthr_fecho_add | apply nthr_close
    | (apply nthr_lift; first [apply nerr_sprintf | apply nerr_ck | apply nerr_gen | apply nerr_peek])
    | (apply nthr_bind; [|intros ? ? ? ?])
    | match goal with |- nthr (if ?c then _ else _) => destruct c end
    | match goal with |- nthr (match ?c with Some _ => _ | None => _ end) => destruct c end ].

Lemma nthr_zone_echo z r : nthr (zone_echo z r).
Proof.
  unfold zone_echo, zecho_res. nt; apply nthr_lift; repeat first [apply nerr_ok | apply nerr_ints | apply nerr_sprintf | (apply nerr_bind; [|intros ?])].
Qed.

Definition shaped (z : zone) : Prop := zone_fits z /\ Forall (fun d => made d /\ d_mem d <> None) (z_data z).

Lemma nthr_make_buf z oom l : zone_fits z -> Forall (fun d => made d /\ d_mem d <> None) l -> (forall k, oom k = false) ->
  forall k, nthr (make_buf z (real_of z) oom k l).
Proof.
  intros Hz Hl Ho. induction Hl as [|d l [H1 H2] Hl IH]; intros k; cbn [make_buf]; [apply nthr_ret|].
  apply nthr_bind; [rewrite Ho; apply nthr_lift, nerr_make_buf1; assumption|]. intros _ _ b _.
  apply nthr_bind; [apply nthr_add_live|]. intros _ _ u _. apply nthr_bind; [apply IH|]. intros _ _ bs _. apply nthr_ret.
Qed.

Lemma make_buf_empty z oom l : zone_fits z -> forall k s s' bufs,
  make_buf z (real_of z) oom k l s = Ret s' bufs ->
  forall d, In d l -> made d -> d_mem d = Some [] -> In (d, []) (combine l bufs).
Proof.
  intros Hz. induction l as [|y l IH]; intros k s s' bufs E d Hin Hd Hm; [destruct Hin|]. cbn [make_buf] in E.
  unfold bind, lift in E. destruct (make_buf1 z (real_of z) (oom k) y) as [b|e|] eqn:Eb; [|discriminate E..].
  unfold add_live in E. match type of E with context [make_buf z (real_of z) oom (S k) l ?st] => destruct (make_buf z (real_of z) oom (S k) l st) as [s2 bs|s2 e|] eqn:E2 end; [|discriminate E..].
  unfold ret in E. injection E as _ <-. cbn [combine]. destruct Hin as [->|Hin].
  - left. f_equal. apply (nok_make_buf1 z d) in Eb; auto. congruence.
  - right. eapply IH; eassumption.
Qed.

Lemma nthr_zone_data vars oom z : shaped z -> (forall k, oom k = false) -> nthr (zone_data vars oom z (real_of z)).
Proof.
  intros [Hz Hd] Ho. unfold zone_data, realise_buf, zecho_res, fwrite, imul3, imul.
  apply nthr_bind; [nt|intros _ _ pos _]. apply nthr_bind; [nt|intros _ _ u1 _].
  apply nthr_bind; [apply nthr_for_each; intros; nt|intros _ _ u2 _]. do 3 (apply nthr_bind; [nt|intros _ _ ? _]).
  apply nthr_bind; [apply nthr_make_buf; assumption|intros _ _ bufs _].
  apply nthr_bind.
  { apply nthr_for_each. intros k [d b] Hin. apply in_combine_l in Hin. rewrite Forall_forall in Hd. destruct (Hd d Hin) as [H1 H2].
    apply nthr_bind; [apply nthr_lift; ne|intros _ _ n _].
    apply nthr_bind; [apply nthr_lift, nerr_minmax; apply (made_type d H1 H2)|intros _ _ [mn mx] _]. nt. }
  intros _ _ u3 _. apply nthr_bind; [apply nthr_zone_echo|intros _ _ u4 _]. apply nthr_bind; [nt|intros _ _ u5 _].
  apply nthr_bind.
  { apply nthr_for_each. intros k p _. nt. apply nthr_lift; ne. }
  intros _ _ u6 _. nt.
Qed.

Lemma nret_zone_data vars oom z d : zone_fits z -> In d (z_data z) -> made d -> d_mem d = Some [] -> nret (zone_data vars oom z (real_of z)).
Proof.
  intros Hz Hin Hd Hm. unfold zone_data. do 6 (apply nret_bind2; intros _ _ ? _).
  apply nret_bind2. intros s s' bufs E. apply nret_bind1. apply nret_for_each. exists (d, []).
  split; [eapply make_buf_empty; eassumption|]. intros k. apply nret_bind2. intros _ _ n _. cbn [fst snd].
  apply nret_bind1, nret_lift, nok_minmax.
Qed.

(** What comes before. *)
Definition taken (vars : list string) (z : zone) : Prop := shaped z /\ z_data z <> [] /\ length (z_data z) = length vars.

Lemma zone_pre_taken vars z s : taken vars z -> zone_pre vars z (s, zone_log_of z) = Ret (s, log0 z) (real_of z).
Proof.
  intros ((Hz & Hd) & Hne & Hl). unfold zone_pre, bind, lift, real_of, log0.
  destruct (list3_samples z Hz) as (r & Er & _). rewrite Er. unfold upd_snd. cbn [fst snd].
  destruct (length (z_data z) =? 0)%nat eqn:E0.
  { apply Nat.eqb_eq in E0. destruct (z_data z); [congruence|discriminate]. }
  rewrite Hl, Nat.eqb_refl. cbn [negb].
  rewrite pre_data_ok; [unfold ret, real_of; rewrite Er; reflexivity|].
  eapply Forall_impl; [|exact Hd]. intros d (H1 & H2). rewrite unset_mem by assumption. destruct (d_mem d); congruence.
Qed.

Lemma pre_zones_taken e f l : forall done s,
  Forall (taken (f_vars f)) l ->
  pre_zones f (length done) l (s, start_log e f done) = Ret (s, start_log e f (done ++ map log0 l)) (map real_of l).
Proof.
  induction l as [|z l IH]; intros done s H; cbn [pre_zones map].
  - rewrite app_nil_r. reflexivity.
  - inversion H as [|? ? H1 H2]; subst. unfold bind at 1, catch_err, bind at 1, upd_snd at 1. cbn [fst snd].
    rewrite (on_zone_eq _ done (zone_log_of z) []) by reflexivity.
    rewrite zone_pre_taken by assumption. cbn [fst snd].
    change (fl_set_zones (done ++ [log0 z]) _) with (start_log e f (done ++ [log0 z])).
    unfold bind. replace (S (length done)) with (length (done ++ [log0 z])) by (rewrite app_length; cbn; lia).
    rewrite IH by assumption. rewrite <- app_assoc. reflexivity.
Qed.

Lemma file_pre_taken e f s :
  f_vars f <> [] -> f_zones f <> [] -> Forall (taken (f_vars f)) (f_zones f) ->
  file_pre f (s, start_log e f []) = Ret (s, start_log e f (map log0 (f_zones f))) (map real_of (f_zones f)).
Proof.
  intros Hv Hz H. unfold file_pre.
  destruct (length (f_vars f) =? 0)%nat eqn:E1; [apply Nat.eqb_eq in E1; destruct (f_vars f); [congruence|discriminate]|].
  destruct (length (f_zones f) =? 0)%nat eqn:E2; [apply Nat.eqb_eq in E2; destruct (f_zones f); [congruence|discriminate]|].
  apply (pre_zones_taken e f (f_zones f) []). assumption.
Qed.

Lemma not_refused_taken f :
  Forall (fun z => zone_fits z /\ Forall made (z_data z)) (f_zones f) -> ~ refused f ->
  f_vars f <> [] /\ f_zones f <> [] /\ Forall (taken (f_vars f)) (f_zones f).
Proof.
  intros H Hr. unfold refused in Hr. split; [tauto|]. split; [tauto|]. rewrite Forall_forall in *. intros z Hin.
  destruct (H z Hin) as [Hz Hd]. unfold taken, shaped.
  assert (Hn : ~ refused_zone f z) by (intros X; apply Hr; right; right; eauto). unfold refused_zone in Hn.
  conjs; auto.
  - rewrite Forall_forall in *. intros d Hi. split; [auto|]. intros E. apply Hn. right. right. right. eauto.
  - destruct (Nat.eq_dec (length (z_data z)) (length (f_vars f))); [assumption|tauto].
Qed.

Lemma combine_map_in {A B} (g : A -> B) l : forall i x, nth_error l i = Some x -> nth_error (combine l (map g l)) i = Some (x, g x).
Proof. induction l as [|y l IH]; intros [|i] x H; try discriminate H; cbn; [now injection H as ->|now apply IH]. Qed.
Lemma in_combine_map {A B} (g : A -> B) l x y : In (x, y) (combine l (map g l)) -> In x l /\ y = g x.
Proof. induction l as [|a l IH]; cbn; [tauto|]. intros [H|H]; [injection H as -> <-; auto|]. apply IH in H. tauto. Qed.

Lemma bind_inv {T A B} (m : M T A) (k : A -> M T B) s s' b : bind m k s = Ret s' b -> exists s1 a, m s = Ret s1 a /\ k a s1 = Ret s' b.
Proof. unfold bind. destruct (m s) as [s1 a|s1 e|]; [eauto|discriminate..]. Qed.

Lemma zone_pre_real vars z s s' r : zone_pre vars z s = Ret s' r -> r = real_of z.
Proof.
  unfold zone_pre. intros E. apply bind_inv in E as (s1 & r1 & E1 & E). unfold lift in E1.
  destruct (gather_real_size z) as [r2|e|] eqn:Eg; [|discriminate E1..]. injection E1 as _ <-.
  apply bind_inv in E as (s2 & u & _ & E). unfold throw in E. destruct (length (z_data z) =? 0)%nat; [discriminate E|].
  destruct (negb _); [discriminate E|]. apply bind_inv in E as (s3 & u3 & _ & E). unfold ret in E. injection E as _ <-.
  unfold real_of. now rewrite Eg.
Qed.

Lemma pre_zones_real f l : forall i s s' rs, pre_zones f i l s = Ret s' rs -> rs = map real_of l.
Proof.
  induction l as [|z l IH]; intros i s s' rs E; cbn [pre_zones map] in E.
  - unfold ret in E. now injection E as _ <-.
  - apply bind_inv in E as (s1 & r & E1 & E). apply bind_inv in E as (s2 & rs2 & E2 & E). unfold ret in E. injection E as _ <-.
    apply IH in E2 as ->. cbn [map]. f_equal. unfold catch_err in E1.
    match type of E1 with context [bind ?m ?k s] => destruct (bind m k s) as [sx x|sx x|] eqn:Eb end; [|discriminate E1..].
    injection E1 as -> ->. apply bind_inv in Eb as (s3 & u & _ & Eb). unfold on_zone in Eb. destruct (nth_error _ _); [|discriminate Eb].
    destruct (zone_pre (f_vars f) z _) as [sy y|sy y|] eqn:Ez; [|discriminate Eb..]. injection Eb as _ ->.
    eapply zone_pre_real; exact Ez.
Qed.

Lemma file_pre_real f s s' rs : file_pre f s = Ret s' rs -> rs = map real_of (f_zones f).
Proof.
  unfold file_pre, fail_with. destruct (_ =? _)%nat; [intros E; apply bind_inv in E as (? & ? & _ & E); discriminate E|].
  destruct (_ =? _)%nat; [intros E; apply bind_inv in E as (? & ? & _ & E); discriminate E|]. apply pre_zones_real.
Qed.

(** Reading nothing is undefined: write_plt does not return. *)
Lemma write_plt_empty e f i z d :
  Forall (fun z => zone_fits z /\ Forall made (z_data z)) (f_zones f) ->
  nth_error (f_zones f) i = Some z -> In d (z_data z) -> d_mem d = Some [] ->
  (forall s u, write_plt e f <> Ret s u) /\ (~ refused f -> plenty e -> write_plt e f = Undef).
Proof.
  intros HF Hi Hd Hm.
  assert (Hz : zone_fits z /\ made d).
  { rewrite Forall_forall in HF. destruct (HF z (nth_error_In _ _ Hi)) as [H1 H2]. rewrite Forall_forall in H2. auto. }
  destruct Hz as [Hz Hmd].
  assert (HR : nret (file_data e f (map real_of (f_zones f)))).
  { unfold file_data. apply (nret_for_each_at _ _ 0 i (z, real_of z)); [now apply combine_map_in|].
    cbn [fst snd]. apply nret_bind2. intros _ _ _ _. apply nret_bind1. apply nret_on_zone. eapply nret_zone_data; eassumption. }
  assert (HN : nret (write_plt_body e f)).
  { unfold write_plt_body. apply nret_bind2. intros s s' rs E. apply file_pre_real in E as ->.
    do 5 (apply nret_bind2; intros _ _ _ _). apply nret_bind1. exact HR. }
  split; [intros s u; apply HN|]. intros Hr [Hop Hoom]. destruct (not_refused_taken f HF Hr) as (Hv & Hzs & Ht).
  unfold write_plt. destruct (write_plt_body e f (mkFs None false 0, file_log_of e f)) as [s u|s er|] eqn:E; [|exfalso|reflexivity].
  { now apply HN in E. }
  revert E. unfold write_plt_body. change (file_log_of e f) with (start_log e f []).
  rewrite (bind_ret _ _ _ _ _ (file_pre_taken e f (mkFs None false 0) Hv Hzs Ht)).
  assert (Ho : open_wb e f (mkFs None false 0, start_log e f (map log0 (f_zones f))) =
               Ret (mkFs (Some []) true 0, start_log e f (map log0 (f_zones f))) tt).
  { unfold open_wb, catch_err. rewrite Hop. reflexivity. }
  rewrite (bind_ret _ _ _ _ _ Ho). clear Ho.
  match goal with |- ?m ?st = _ -> _ => assert (X : nthr m); [|apply X] end.
  unfold file_echo, file_head, fecho_res.
  apply nthr_bind; [nt|intros _ _ u1 _].
  apply nthr_bind.
  { do 5 (apply nthr_bind; [nt|intros _ _ ? _]). apply nthr_bind; [nt|intros _ _ ? _].
    apply nthr_bind; [apply nthr_for_each; intros; nt|intros _ _ ? _].
    apply nthr_bind; [apply nthr_for_each; intros; nt|intros _ _ ? _]. apply nthr_for_each; intros; nt. }
  intros _ _ u2 _. apply nthr_bind; [nt|intros _ _ u3 _]. apply nthr_bind; [nt|intros _ _ u4 _].
  apply nthr_bind.
  { unfold file_data, fecho_res, zone_line. apply nthr_for_each. intros k [y r] Hin. apply in_combine_map in Hin as [Hin ->].
    cbn [fst snd]. apply nthr_bind; [nt|intros _ _ v1 _].
    apply nthr_bind; [apply nthr_on_zone, nthr_zone_data; [rewrite Forall_forall in Ht; apply (Ht y Hin)|apply Hoom]|intros _ _ v2 _]. nt. }
  intros _ _ u5 _. nt.
Qed.

(** ** References *)
Section Refs.
Context {V : Type}.
Variables (enc : V -> bytes) (junk : nat -> Z -> bytes).
Implicit Types (m : mem V).

Lemma ref_inv t p r : ref_of t p = Ok r -> rf_ptr r = p /\ forall mem, data_of t mem = Ok (mkData (rf_type r) (rf_size r) mem).
Proof. unfold ref_of. destruct t; cbn; intros H; try discriminate; injection H as <-; cbn; auto. Qed.

Lemma resolve_made m t p r : ref_of t p = Ok r -> made (resolve enc junk m r).
Proof. intros H. apply ref_inv in H as [_ H]. right. exists t, (pointee enc junk m (rf_ptr r)). apply H. Qed.

Lemma fill_zones_nth m rs zs : forall i j z,
  nth_error zs j = Some z -> nth_error (fill_zones enc junk m i zs rs) j = Some (fill_zone enc junk m z (rs (i + j)%nat)).
Proof.
  induction zs as [|y zs IH]; intros i [|j] z H; try discriminate H; cbn [fill_zones nth_error].
  - injection H as ->. now rewrite Nat.add_0_r.
  - rewrite (IH _ _ _ H). now rewrite Nat.add_succ_comm.
Qed.

Lemma fill_zones_forall m rs zs : forall i,
  Forall zone_fits zs -> (forall j, Forall (fun r => exists t p, ref_of t p = Ok r) (rs j)) ->
  Forall (fun z => zone_fits z /\ Forall made (z_data z)) (fill_zones enc junk m i zs rs).
Proof.
  induction zs as [|y zs IH]; intros i H HR; cbn [fill_zones]; [constructor|]. constructor.
  - split; [exact (Forall_inv H)|]. cbn [fill_zone z_data]. specialize (HR i). induction HR as [|r l (t & p & Hr) _ IHl]; cbn [map]; constructor; auto.
    eapply resolve_made; exact Hr.
  - apply IH; [exact (Forall_inv_tail H)|exact HR].
Qed.

Lemma interior_count (ls : list loc) gs z :
  length gs = length ls -> (1 <= length ls <= 3)%nat -> takes_interior ls gs z -> org_count z = vol (slot_box gs ls).
Proof.
  intros HL H3 (Hm & _). unfold org_count, vol, slot_box. unfold list3 in Hm.
  assert (X : forall g l, extent g l = snd (slots g l) - fst (slots g l)).
  { intros [[n i] q] l. unfold extent, slots. cbn [fst snd]. lia. }
  destruct ls as [|l0 [|l1 [|l2 [|l3 ls]]]]; cbn [length] in *; try lia;
  destruct gs as [|g0 [|g1 [|g2 [|g3 gs]]]]; cbn [length] in HL; try lia;
  cbn in Hm; injection Hm as -> -> ->; rewrite !X; cbn; ring.
Qed.

Lemma empty_refs e m f rs i z r :
  Forall zone_fits (f_zones f) -> (forall j, Forall (fun r => exists t p, ref_of t p = Ok r) (rs j)) ->
  nth_error (f_zones f) i = Some z -> In r (rs i) -> pointee enc junk m (rf_ptr r) = Some [] ->
  (forall s u, write_refs enc junk e m f rs <> Ret s u) /\
  (~ refused (fill enc junk m f rs) -> plenty e -> write_refs enc junk e m f rs = Undef).
Proof.
  intros HZ HR Hi Hin Hp. unfold write_refs.
  apply (write_plt_empty e (fill enc junk m f rs) i (fill_zone enc junk m z (rs i)) (resolve enc junk m r)).
  - now apply fill_zones_forall.
  - exact (fill_zones_nth m rs (f_zones f) 0 i z Hi).
  - cbn [fill_zone z_data]. now apply in_map.
  - exact Hp.
Qed.

Lemma null_refs m f rs i z r :
  nth_error (f_zones f) i = Some z -> In r (rs i) -> rf_ptr r = Null -> refused (fill enc junk m f rs).
Proof.
  intros Hi Hin Hr. right. right. exists (fill_zone enc junk m z (rs i)).
  split; [exact (nth_error_In _ _ (fill_zones_nth m rs (f_zones f) 0 i z Hi))|]. right. right. right.
  exists (resolve enc junk m r). split; [now apply in_map|]. cbn [resolve d_mem]. now rewrite Hr.
Qed.
End Refs.

Lemma registered_stays {V} F h1 h2 (w w1 : world V) aw aw1 a k o n p (enc : V -> bytes) junk t wd r :
  after F h1 w aw -> healthy aw a -> find w a = Some (k, o) -> o_data o <> Null -> 0 <= n < k_N k ->
  m_data_pt true k (heap w) o n = Ok p -> ref_of t p = Ok r -> encodes t wd enc junk ->
  after F (h1 ++ h2) w1 aw1 -> (forall c, In c h2 -> frees c a = false) ->
  find w1 a = Some (k, o) /\ healthy aw1 a /\ m_data_pt true k (heap w1) o n = Ok p /\
  exists mem, d_mem (resolve enc junk (heap w1) r) = Some mem /\ image w1 k o n wd enc mem /\
    forall z, takes_interior (k_locs k) (m_size o) z -> data_wf z (resolve enc junk (heap w1) r).
Proof.
  intros HA HH Hf Hd Hn Hp Hr ((d & Hd1 & Hd2) & He & Hj) HB Hx.
  pose proof (run_find F h2 h1 w aw w1 aw1 a k o HA HB Hf Hd Hx) as Hf1.
  pose proof (same_healthy F F h1 (h1 ++ h2) w w1 aw aw1 a k o HA HB Hf Hf1 Hd HH) as HH1.
  assert (Hp1 : m_data_pt true k (heap w1) o n = Ok p).
  { destruct (after_find _ _ _ _ _ _ _ HA Hf) as (x & own & lk & Ha & HN & Hrep & HR).
    destruct x as [|gs f|gs nb]; [destruct Hd; now apply (data_null _ _ _ _ _ Hrep)| |destruct (HH _ _ _ Ha)].
    destruct (rep_data _ _ _ _ _ Hrep) as (b & Hb). rewrite <- Hp.
    now rewrite (data_pt_addr F h1 w aw a k o n b true HA HH Hf Hb Hn), (data_pt_addr F (h1 ++ h2) w1 aw1 a k o n b true HB HH1 Hf1 Hb Hn). }
  conjs; auto. destruct (pointee_image enc junk wd He Hj F (h1 ++ h2) w1 aw1 a k o n p HB HH1 Hf1 Hd Hn Hp1) as (mem & E & Hi & Hl).
  pose proof (ref_inv _ _ _ Hr) as [Ep Ed]. exists mem. cbn [resolve d_mem]. rewrite Ep. conjs; auto.
  intros z Hz. split; [eapply resolve_made; exact Hr|]. cbn [resolve d_mem d_size]. rewrite Ep, E. intros mem' X. injection X as <-.
  rewrite Ed in Hd1. injection Hd1 as <-. cbn [d_size] in Hd2. rewrite Hd2.
  destruct (after_find _ _ _ _ _ _ _ HB Hf1) as (x & own & lk & Ha & HN & Hrep & HR).
  assert (Hs : length (m_size o) = length (k_locs k)).
  { rewrite (rep_size _ _ _ _ _ Hrep). destruct x as [|gs f|gs nb]; cbn [a_shape].
    - now rewrite map_length.
    - destruct Hrep as ((X & _) & _). exact X.
    - destruct Hrep as ((X & _) & _). exact X. }
  rewrite (interior_count _ _ _ Hs ltac:(destruct k; cbn; lia) Hz). exact Hl.
Qed.
