(** Element access, layout, ownership in reachable states. *)

From Coq Require Import ZArith List Bool Lia.
From Verif Require Import Base M_Flags M_Loop M_RS1 M_RS2 M_RS3 M_Heap M_PD1 M_PD2 M_PD3 M_World
  Spec Spec_Loop Spec_Array Spec_Hist Spec_Reach
  L_Base L_RS L_Range L_Loop L_Heap L_Lin L_Rep L_PD1 L_PD2 L_PD3 L_Kind L_Copy L_World L_Sim.
Import ListNotations.
Open Scope Z_scope.

(** ** Legal coordinates *)

Lemma dims_ok_lengths ls gs q fl :
  dims_ok ls gs q fl -> length gs = length ls /\ length q = length ls /\ length fl = length ls.
Proof.
  revert gs q fl. induction ls as [|l ls IH]; intros [|g gs] [|x q] [|f fl] H; cbn in H; try contradiction; [auto|].
  destruct H as [_ H]. destruct (IH _ _ _ H) as (? & ? & ?). cbn. auto.
Qed.

Lemma dims_ok_iff ls gs q fl d d' :
  length gs = length ls -> length q = length ls -> length fl = length ls ->
  (dims_ok ls gs q fl <-> flag_error d ls fl = None /\ index_error d' ls gs q fl = None).
Proof.
  revert gs q fl d d'. induction ls as [|l ls IH]; intros [|g gs] [|x q] [|f fl] d d' H1 H2 H3;
    cbn in H1, H2, H3; try discriminate; [cbn; tauto|].
  cbn [dims_ok flag_error index_error]. specialize (IH gs q fl (d + 1) (d' + 1)).
  destruct g as [[n i] p]. cbn [slots dim_ok fst snd].
  destruct ((- n <=? x + fl_offset f) && (x + fl_offset f <? i + p + loc_val l)) eqn:E;
    destruct l, f; cbn [fl_offset loc_val] in *; zcmp;
    (split; [intros [? ?]|intros [? ?]]); try discriminate; try tauto; try lia;
    try (rewrite <- IH by congruence); try (split; [lia|]); try tauto;
    try (rewrite IH by congruence; split; assumption);
    try (split; [tauto|]); try tauto.
  all: try (apply IH; try congruence; tauto).
Qed.

Lemma accepts_iff k gs n q fl :
  length gs = length (k_locs k) -> length q = length (k_locs k) -> length fl = length (k_locs k) -> 0 <= n ->
  (accepts k gs n q fl <-> access_error (k_N k) (k_locs k) gs n q fl = None).
Proof.
  intros H1 H2 H3 Hn. unfold accepts, access_error. rewrite (dims_ok_iff _ _ _ _ 0 0) by assumption.
  destruct (k_N k <=? n) eqn:E; zcmp.
  - split; [intros [? _]; lia|discriminate].
  - destruct (flag_error 0 (k_locs k) fl) eqn:E1.
    + split; [intros [_ [? _]]; discriminate|discriminate].
    + split; [tauto|]. intros H. split; [lia|tauto].
Qed.

Lemma slot_of_in gs ls q fl : dims_ok ls gs q fl -> in_box (slot_box gs ls) (slot_of q fl).
Proof.
  intros H. destruct (dims_ok_lengths _ _ _ _ H) as (H1 & H2 & H3).
  apply (index_error_none 0 ls gs q fl); try assumption.
  now apply (dims_ok_iff ls gs q fl 0 0) in H.
Qed.

Lemma dim_ok_surj l g s : fst (slots g l) <= s < snd (slots g l) -> exists x f, dim_ok l g x f /\ x + fl_offset f = s.
Proof.
  destruct g as [[n i] p], l; cbn; intros H.
  - exists s, FC. cbn. lia.
  - exists s, FN. cbn. lia.
Qed.

(** Every slot is named by some index and flag. *)
Lemma slot_of_surj ls gs s :
  length gs = length ls -> in_box (slot_box gs ls) s -> exists q fl, dims_ok ls gs q fl /\ slot_of q fl = s.
Proof.
  revert gs s. induction ls as [|l ls IH]; intros [|g gs] s HL H; cbn in HL; try discriminate.
  - inversion H. exists [], []. split; [exact I|reflexivity].
  - unfold slot_box in H. cbn in H. destruct s as [|x s]; [inversion H|].
    inversion H as [|? ? ? ? Hx H0]; subst; clear H; rename H0 into H.
    destruct (IH gs s ltac:(congruence) H) as (q & fl & Hd & Hs).
    destruct (dim_ok_surj l g x Hx) as (y & f & Hy & Ey).
    exists (y :: q), (f :: fl). split; [split; assumption|]. unfold slot_of in *. cbn. now rewrite Ey, Hs.
Qed.

Lemma dims_ok_int ls gs q fl : Forall shape_ok gs -> dims_ok ls gs q fl -> Forall in_int q.
Proof.
  revert gs q fl. induction ls as [|l ls IH]; intros [|g gs] [|x q] [|f fl] Hs H; cbn in H; try contradiction; [constructor|].
  inversion Hs; subst. destruct H as [H H']. constructor; [|eapply IH; eassumption].
  destruct g as [[n i] p]. unfold shape_ok in *. unfold in_int. destruct l, f; cbn in H; try contradiction; lia.
Qed.

Section Reach.
Context {V : Type}.

Lemma liv_data k (m : mem V) o gs bs : liv k m o gs bs -> o_data o = Ptr (hd O bs) 0.
Proof.
  destruct k, o, gs as [|g0 [|g1 [|g2 [|g3 gs]]]], bs as [|b0 [|b1 [|b2 [|b3 bs]]]]; intros H; cbn in H; try contradiction;
    try destruct g0 as [[? ?] ?]; apply H.
Qed.

Implicit Types (w : world V) (aw : aworld V) (h : list (op V)).

Lemma after_rel F h w aw : after F h w aw -> exists own lk, rel F w aw own lk.
Proof.
  intros (HL & -> & rs & E). destruct (exec_sim F h _ _ _ _ (rel_start F) HL) as (w' & own & lk & E' & HR).
  rewrite E in E'. injection E' as <- _. eauto.
Qed.

Lemma after_find F h w aw a k o :
  after F h w aw -> find w a = Some (k, o) ->
  exists x own lk, afind aw a = Some (k, x) /\ kok k /\ rep k (heap w) o x (own a) /\ rel F w aw own lk.
Proof.
  intros H Hf. destruct (after_rel _ _ _ _ H) as (own & lk & HR).
  pose proof (r_arr _ _ _ _ _ HR a) as Ha. rewrite Hf in Ha. unfold entry_ok in Ha.
  destruct (afind aw a) as [[k' x]|]; [|contradiction]. destruct Ha as (<- & HN & Hr).
  exists x, own, lk. auto.
Qed.

Lemma after_afind F h w aw a : after F h w aw -> (find w a = None <-> afind aw a = None).
Proof.
  intros H. destruct (after_rel _ _ _ _ H) as (own & lk & HR).
  pose proof (r_arr _ _ _ _ _ HR a) as Ha. unfold entry_ok in Ha.
  destruct (find w a) as [[? ?]|], (afind aw a) as [[? ?]|]; try contradiction; split; congruence.
Qed.

(** Every legal program runs. *)
Lemma after_exists F h : legal_run F a_start h -> exists w, after F h w (fst (aexec F a_start h)).
Proof.
  intros HL. destruct (exec_sim F h _ _ _ _ (rel_start F) HL) as (w' & own & lk & E' & HR).
  exists w'. split; [assumption|]. split; [reflexivity|]. eauto.
Qed.

Lemma aexec_app F h h' (aw : aworld V) :
  aexec F aw (h ++ h') =
  (fst (aexec F (fst (aexec F aw h)) h'), snd (aexec F aw h) ++ snd (aexec F (fst (aexec F aw h)) h')).
Proof.
  revert aw. induction h as [|c h IH]; intros aw; cbn.
  - now destruct (aexec F aw h').
  - destruct (astep F aw c) as [aw1 r]. rewrite IH. now destruct (aexec F aw1 h).
Qed.

Lemma legal_run_app F h h' (aw : aworld V) :
  legal_run F aw (h ++ h') <-> legal_run F aw h /\ legal_run F (fst (aexec F aw h)) h'.
Proof.
  revert aw. induction h as [|c h IH]; intros aw; cbn; [tauto|].
  rewrite IH. destruct (astep F aw c) as [aw1 r]. cbn. destruct (aexec F aw1 h). cbn. tauto.
Qed.

Lemma exec_app chk h h' w :
  exec chk w (h ++ h') =
  match exec chk w h with
  | Some (w1, rs) => match exec chk w1 h' with Some (w2, rs') => Some (w2, rs ++ rs') | None => None end
  | None => None
  end.
Proof.
  revert w. induction h as [|c h IH]; intros w; cbn.
  - now destruct (exec chk w h') as [[? ?]|].
  - destruct (step chk w c) as [[w1 r]|]; [|reflexivity]. rewrite IH.
    destruct (exec chk w1 h) as [[w2 rs]|]; [|reflexivity]. now destruct (exec chk w2 h') as [[? ?]|].
Qed.

(** One more call. *)
Lemma after_step F h w aw c :
  after F h w aw -> legal aw c ->
  exists w', step true w c = Some (w', snd (astep F aw c)) /\ after F (h ++ [c]) w' (fst (astep F aw c)).
Proof.
  intros HA Hc. destruct (after_rel _ _ _ _ HA) as (own & lk & HR).
  destruct (step_sim F w aw own lk c HR Hc) as (w' & own' & lk' & E & HR').
  exists w'. split; [exact E|]. destruct HA as (HL & -> & rs & Ex). split; [|split].
  - apply legal_run_app. cbn. auto.
  - rewrite aexec_app. cbn. now destruct (astep F (fst (aexec F a_start h)) c).
  - rewrite exec_app, Ex. cbn. rewrite E. eauto.
Qed.

(** ** Access *)

Lemma rep_lengths k m o (x : arr V) bs : rep k m o x bs -> length (m_size o) = length (k_locs k).
Proof. intros H. apply m_size_length. eapply rep_class; eassumption. Qed.

Lemma access_total F h w aw a k o n q fl :
  after F h w aw -> healthy aw a -> find w a = Some (k, o) ->
  in_uint n -> length q = length (k_locs k) -> length fl = length (k_locs k) -> Forall in_int q ->
  match access_answer k o n q fl with
  | Some e => m_at true k (heap w) o n q fl = Err e
  | None => exists b off cs, m_at true k (heap w) o n q fl = Ok (Ptr b off) /\ o_data o = Ptr b 0 /\
              block (heap w) b = Some cs /\ 0 <= off < Z.of_nat (length cs)
  end.
Proof.
  intros HA HH Hf Hn Hq Hfl Hi. destruct (after_find _ _ _ _ _ _ _ HA Hf) as (x & own & lk & Ha & HN & Hr & HR).
  pose proof (rep_data _ _ _ _ _ Hr) as Hd. unfold access_answer. destruct x as [|gs f|gs nb].
  - rewrite Hd. apply at_empty; [apply Hr|assumption..].
  - destruct Hd as (b & Hd). rewrite Hd. rewrite (rep_size _ _ _ _ _ Hr). cbn [a_shape].
    rewrite (at_live k (heap w) o gs f (own a)) by (assumption || apply Hn).
    destruct (access_error (k_N k) (k_locs k) gs n q fl) eqn:E; [reflexivity|].
    pose proof Hr as (H1 & H2 & H3 & H4). apply access_none in E; try assumption; [|apply H1].
    destruct E as [E1 E2]. destruct H4 as (cs & C1 & C2 & C3).
    exists (hd O (own a)), (lin (sbox k gs) n (slot_of q fl)), cs. conjs; auto.
    + now rewrite <- Hd, (liv_data _ _ _ _ _ H3).
    + destruct Hn. apply lin_bounds with (N := k_N k); [lia|assumption].
    + rewrite C2. destruct Hn. apply lin_bounds; [lia|assumption].
  - destruct (HH _ _ _ Ha).
Qed.

Lemma access_iff F h w aw a k o n q fl :
  after F h w aw -> healthy aw a -> find w a = Some (k, o) ->
  in_uint n -> length q = length (k_locs k) -> length fl = length (k_locs k) -> Forall in_int q ->
  ((exists p, m_at true k (heap w) o n q fl = Ok p) <-> o_data o <> Null /\ accepts k (m_size o) n q fl).
Proof.
  intros HA HH Hf Hn Hq Hfl Hi. pose proof (access_total F h w aw a k o n q fl HA HH Hf Hn Hq Hfl Hi) as H.
  destruct (after_find _ _ _ _ _ _ _ HA Hf) as (x & own & lk & Ha & HN & Hr & HR).
  rewrite accepts_iff by (assumption || (destruct Hn; lia) || (eapply rep_lengths; eassumption)).
  unfold access_answer in H. pose proof (rep_data _ _ _ _ _ Hr) as Hd.
  destruct (o_data o) eqn:Ed.
  - rewrite H. split; [intros [p E]; discriminate|intros [X _]; contradiction].
  - destruct (access_error _ _ _ _ _ _) eqn:E.
    + rewrite H. split; [intros [p E']; discriminate|intros [_ X]; discriminate].
    + destruct H as (? & ? & ? & -> & _). split; [intros _; split; [discriminate|reflexivity]|eauto].
  - destruct x; [discriminate|destruct Hd; discriminate..].
Qed.

(** The address in closed form. *)
Lemma access_addr F h w aw a k o n q fl :
  after F h w aw -> healthy aw a -> find w a = Some (k, o) -> o_data o <> Null ->
  accepts k (m_size o) n q fl ->
  exists b, o_data o = Ptr b 0 /\
    m_at true k (heap w) o n q fl = Ok (Ptr b (lin (slot_box (m_size o) (k_locs k)) n (slot_of q fl))).
Proof.
  intros HA HH Hf Hd [Hn Hok]. destruct (after_find _ _ _ _ _ _ _ HA Hf) as (x & own & lk & Ha & HN & Hr & HR).
  destruct (dims_ok_lengths _ _ _ _ Hok) as (L1 & L2 & L3).
  pose proof (dims_ok_int _ _ _ _ (rep_shape_ok _ _ _ _ _ Hr) Hok) as Hint.
  pose proof (rep_data _ _ _ _ _ Hr) as Hdd. destruct x as [|gs f|gs nb]; [congruence| |destruct (HH _ _ _ Ha)].
  destruct Hdd as (b & Hb). exists b. split; [exact Hb|].
  rewrite (at_live k (heap w) o gs f (own a)) by (assumption || lia).
  assert (Hs : m_size o = gs) by (rewrite (rep_size _ _ _ _ _ Hr); reflexivity). rewrite Hs in *.
  rewrite (proj1 (accepts_iff k gs n q fl L1 L2 L3 ltac:(lia))) by (split; assumption).
  do 2 f_equal. destruct Hr as (_ & _ & H3 & _).
  apply liv_data in H3. rewrite Hb in H3. now injection H3 as ->.
Qed.

(** ** C10 *)
Lemma face_alias F h w aw a k o n q1 x q2 fl1 fl2 p :
  after F h w aw -> healthy aw a -> find w a = Some (k, o) -> length q1 = length fl1 ->
  in_uint n -> Forall in_int (q1 ++ x :: q2) -> 
  length (q1 ++ x :: q2) = length (k_locs k) -> length (fl1 ++ FP :: fl2) = length (k_locs k) ->
  in_int (x + 1) ->
  (m_at true k (heap w) o n (q1 ++ (x + 1) :: q2) (fl1 ++ FN :: fl2) = Ok p <->
   m_at true k (heap w) o n (q1 ++ x :: q2) (fl1 ++ FP :: fl2) = Ok p).
Proof.
  intros HA HH Hf Hl Hn Hi Lq Lf Hx.
  assert (Lq' : length (q1 ++ (x + 1) :: q2) = length (k_locs k)) by (rewrite app_length in *; exact Lq).
  assert (Lf' : length (fl1 ++ FN :: fl2) = length (k_locs k)) by (rewrite app_length in *; exact Lf).
  assert (Hi' : Forall in_int (q1 ++ (x + 1) :: q2)).
  { apply Forall_app in Hi. destruct Hi as [Hi1 Hi2]. inversion Hi2; subst. apply Forall_app. split; [assumption|]. now constructor. }
  assert (HS : slot_of (q1 ++ (x + 1) :: q2) (fl1 ++ FN :: fl2) = slot_of (q1 ++ x :: q2) (fl1 ++ FP :: fl2)).
  { unfold slot_of. clear - Hl. revert fl1 Hl. induction q1 as [|y q1 IH]; intros [|f fl1] Hl; cbn in Hl; try discriminate.
    - cbn. f_equal. lia.
    - cbn. f_equal. apply IH. congruence. }
  assert (HD : forall gs, dims_ok (k_locs k) gs (q1 ++ (x + 1) :: q2) (fl1 ++ FN :: fl2) <->
                          dims_ok (k_locs k) gs (q1 ++ x :: q2) (fl1 ++ FP :: fl2)).
  { clear - Hl. generalize (k_locs k). revert fl1 Hl. induction q1 as [|y q1 IH]; intros [|f fl1] Hl [|l ls] [|g gs]; cbn in Hl; try discriminate; try tauto.
    - cbn. destruct g as [[n i] p], l; cbn; (split; intros [? ?]; split; try assumption; try contradiction; lia).
    - cbn. specialize (IH fl1 ltac:(congruence) ls gs). tauto. }
  split; intros E.
  - destruct (proj1 (access_iff F h w aw a k o n _ _ HA HH Hf Hn Lq' Lf' Hi') (ex_intro _ p E)) as [Hd [Hn' Hok]].
    destruct (access_addr F h w aw a k o n _ _ HA HH Hf Hd (conj Hn' Hok)) as (b & Hb & E1).
    destruct (access_addr F h w aw a k o n _ _ HA HH Hf Hd (conj Hn' (proj1 (HD _) Hok))) as (b' & Hb' & E2).
    rewrite E2, <- HS. rewrite Hb in Hb'. injection Hb' as <-. congruence.
  - destruct (proj1 (access_iff F h w aw a k o n _ _ HA HH Hf Hn Lq Lf Hi) (ex_intro _ p E)) as [Hd [Hn' Hok]].
    destruct (access_addr F h w aw a k o n _ _ HA HH Hf Hd (conj Hn' Hok)) as (b & Hb & E1).
    destruct (access_addr F h w aw a k o n _ _ HA HH Hf Hd (conj Hn' (proj2 (HD _) Hok))) as (b' & Hb' & E2).
    rewrite E2, HS. rewrite Hb in Hb'. injection Hb' as <-. congruence.
Qed.

(** ** C11 *)
Lemma access_injective F h w aw a k o n q fl n' q' fl' :
  after F h w aw -> healthy aw a -> find w a = Some (k, o) -> o_data o <> Null ->
  accepts k (m_size o) n q fl -> accepts k (m_size o) n' q' fl' ->
  (m_at true k (heap w) o n q fl = m_at true k (heap w) o n' q' fl' <-> n = n' /\ slot_of q fl = slot_of q' fl').
Proof.
  intros HA HH Hf Hd H1 H2.
  destruct (access_addr F h w aw a k o n q fl HA HH Hf Hd H1) as (b & Hb & ->).
  destruct (access_addr F h w aw a k o n' q' fl' HA HH Hf Hd H2) as (b' & Hb' & ->).
  rewrite Hb in Hb'. injection Hb' as <-. split.
  - intros E. injection E as E. apply lin_inj in E; [exact E|apply slot_of_in; apply H1|apply slot_of_in; apply H2].
  - intros [-> ->]. reflexivity.
Qed.

Lemma access_surjective F h w aw a k o b cs off :
  after F h w aw -> healthy aw a -> find w a = Some (k, o) -> o_data o = Ptr b 0 ->
  block (heap w) b = Some cs -> 0 <= off < Z.of_nat (length cs) ->
  exists n q fl, accepts k (m_size o) n q fl /\ m_at true k (heap w) o n q fl = Ok (Ptr b off).
Proof.
  intros HA HH Hf Hd Hb Ho. destruct (after_find _ _ _ _ _ _ _ HA Hf) as (x & own & lk & Ha & HN & Hr & HR).
  pose proof (rep_data _ _ _ _ _ Hr) as Hdd. pose proof (rep_lengths _ _ _ _ _ Hr) as HL.
  destruct x as [|gs f|gs nb]; [congruence| |destruct (HH _ _ _ Ha)].
  assert (Hs : m_size o = gs) by (rewrite (rep_size _ _ _ _ _ Hr); reflexivity).
  pose proof Hr as (R1 & R2 & R3 & cs' & C1 & C2 & C3).
  assert (Eb : hd O (own a) = b).
  { apply liv_data in R3. rewrite Hd in R3. now injection R3 as ->. }
  rewrite Eb, Hb in C1. injection C1 as <-. rewrite C2 in Ho.
  destruct (lin_surj_N (sbox k gs) (k_N k) off) as (n & s & Hn & Hsi & El);
    [eapply rep_ordered; eassumption|assumption|].
  destruct (slot_of_surj (k_locs k) gs s) as (q & fl & Hok & Es); [congruence|assumption|].
  exists n, q, fl. assert (HAc : accepts k (m_size o) n q fl) by (rewrite Hs; split; assumption).
  split; [exact HAc|].
  destruct (access_addr F h w aw a k o n q fl HA HH Hf ltac:(congruence) HAc) as (b' & Hb' & ->).
  rewrite Hd in Hb'. injection Hb' as <-. rewrite Hs, Es. fold (sbox k gs). now rewrite El.
Qed.

Lemma buffer_exact F h w aw a k o b :
  after F h w aw -> healthy aw a -> find w a = Some (k, o) -> o_data o = Ptr b 0 ->
  exists cs, block (heap w) b = Some cs /\
    Z.of_nat (length cs) = k_N k * zprod (map (fun '(g, l) => extent g l) (combine (m_size o) (k_locs k))).
Proof.
  intros HA HH Hf Hd. destruct (after_find _ _ _ _ _ _ _ HA Hf) as (x & own & lk & Ha & HN & Hr & HR).
  pose proof (rep_data _ _ _ _ _ Hr) as Hdd.
  destruct x as [|gs f|gs nb]; [congruence| |destruct (HH _ _ _ Ha)].
  assert (Hs : m_size o = gs) by (rewrite (rep_size _ _ _ _ _ Hr); reflexivity).
  pose proof Hr as (R1 & R2 & R3 & cs' & C1 & C2 & C3).
  assert (Eb : hd O (own a) = b).
  { apply liv_data in R3. rewrite Hd in R3. now injection R3 as ->. }
  exists cs'. rewrite <- Eb. split; [assumption|]. rewrite C2, Hs. f_equal. unfold vol, sbox, slot_box.
  rewrite map_map. f_equal. apply map_ext. intros [[[n i] p] l]. cbn. lia.
Qed.

End Reach.
