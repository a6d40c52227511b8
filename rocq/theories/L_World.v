(** Any number of arrays in one memory: the objects of M_World.v follow the
    abstract machine of Spec_Hist.v. *)

From Coq Require Import ZArith List Bool Lia.
From Verif Require Import Base M_Flags M_Loop M_RS1 M_RS2 M_RS3 M_Heap M_PD1 M_PD2 M_PD3 M_World
  Spec Spec_Loop Spec_Array Spec_Hist
  L_Base L_RS L_Range L_Loop L_Heap L_Lin L_Rep L_PD1 L_PD2 L_PD3 L_Kind L_Copy.
Import ListNotations.
Open Scope Z_scope.

Lemma put_nth_upd {A} (l : list A) k x : put_nth l k x = upd l k x.
Proof. revert k. induction l as [|y l IH]; intros [|k]; cbn; reflexivity || now rewrite IH. Qed.

Lemma put_nth_length {A} (l : list A) k x : length (put_nth l k x) = length l.
Proof. rewrite put_nth_upd. apply upd_length. Qed.

Section World.
Context {V : Type}.
Variable F : nat -> bool.
Implicit Types m : mem V.

Definition entry_ok (m : mem V) (x : option (kind * obj)) (y : option (kind * arr V)) (bs : list nat) : Prop :=
  match x, y with
  | Some (k, o), Some (k', a) => k = k' /\ kok k /\ rep k m o a bs
  | None, None => bs = []
  | _, _ => False
  end.

(** [own a] are the blocks of array [a], [lk] the blocks nobody can reach. *)
Record rel (w : world V) (aw : aworld V) (own : nat -> list nat) (lk : list nat) : Prop := {
  r_tick : tick (heap w) = a_tick aw;
  r_fails : fails (heap w) = F;
  r_len : length (objs w) = length (arrs aw);
  r_arr : forall a, entry_ok (heap w) (find w a) (afind aw a) (own a);
  r_disj : forall a a' b, In b (own a) -> In b (own a') -> a = a';
  r_lk : forall a b, In b (own a) -> ~ In b lk;
  r_lkd : NoDup lk;
  r_live : forall b, block (heap w) b <> None -> (exists a, In b (own a)) \/ In b lk;
  r_lkl : forall b, In b lk -> block (heap w) b <> None;
  r_leak : length lk = a_leak aw
}.

Lemma entry_frame m m' x y bs :
  (forall b, In b bs -> block m' b = block m b) -> entry_ok m x y bs -> entry_ok m' x y bs.
Proof.
  intros H. unfold entry_ok. destruct x as [[k o]|], y as [[k' a]|]; try tauto.
  intros (H1 & H2 & H3). conjs; auto. eapply rep_frame; eassumption.
Qed.

Lemma entry_live m x y bs b : entry_ok m x y bs -> In b bs -> block m b <> None.
Proof.
  unfold entry_ok. destruct x as [[k o]|], y as [[k' a]|]; try tauto.
  - intros (_ & _ & H). eapply rep_live; eassumption.
  - intros ->. intros [].
Qed.

Definition set_own (own : nat -> list nat) (a : nat) (bs : list nat) : nat -> list nat :=
  fun a' => if Nat.eq_dec a' a then bs else own a'.

(** Replacing the entry of one array. *)
Lemma rel_set w aw own lk w' aw' a bs' :
  rel w aw own lk ->
  tick (heap w') = a_tick aw' -> fails (heap w') = fails (heap w) -> length (objs w') = length (arrs aw') ->
  a_leak aw' = a_leak aw ->
  (forall a', a' <> a -> find w' a' = find w a') -> (forall a', a' <> a -> afind aw' a' = afind aw a') ->
  entry_ok (heap w') (find w' a) (afind aw' a) bs' ->
  (forall b, ~ In b (own a) -> ~ In b bs' -> block (heap w') b = block (heap w) b) ->
  (forall b, In b bs' -> In b (own a) \/ block (heap w) b = None) ->
  (forall b, In b (own a) -> ~ In b bs' -> block (heap w') b = None) ->
  rel w' aw' (set_own own a bs') lk.
Proof.
  intros HR Ht Hf Hl Hk Hfi Hafi He Hsame Hnew Hdead. destruct HR as [R1 R2 R3 R4 R5 R6 R7 R8 R9 R10].
  assert (Hoth : forall a' b, a' <> a -> In b (own a') -> ~ In b (own a) /\ ~ In b bs').
  { intros a' b Ha Hb. assert (X : ~ In b (own a)) by (intros X; apply Ha; eapply R5; eassumption).
    split; [assumption|]. intros Y. destruct (Hnew b Y) as [Z|Z]; [contradiction|].
    apply (entry_live _ _ _ _ b (R4 a')) in Hb. contradiction. }
  assert (Hlk : forall b, In b lk -> ~ In b (own a) /\ ~ In b bs').
  { intros b Hb. assert (X : ~ In b (own a)) by (intros X; eapply R6; eassumption).
    split; [assumption|]. intros Y. destruct (Hnew b Y) as [Z|Z]; [contradiction|].
    apply R9 in Hb. contradiction. }
  constructor; auto; unfold set_own.
  - now rewrite Hf.
  - intros a'. destruct (Nat.eq_dec a' a) as [->|Ha]; [assumption|].
    rewrite Hfi, Hafi by assumption. eapply entry_frame; [|apply R4].
    intros b Hb. destruct (Hoth a' b Ha Hb). auto.
  - intros a1 a2 b. destruct (Nat.eq_dec a1 a) as [->|H1]; destruct (Nat.eq_dec a2 a) as [->|H2]; auto.
    + intros X Y. exfalso. eapply (proj2 (Hoth a2 b H2 Y)); assumption.
    + intros Y X. exfalso. eapply (proj2 (Hoth a1 b H1 Y)); assumption.
    + apply R5.
  - intros a' b. destruct (Nat.eq_dec a' a) as [->|Ha].
    + intros X Y. eapply (proj2 (Hlk b Y)); assumption.
    + apply R6.
  - intros b Hb. destruct (in_dec Nat.eq_dec b bs') as [I1|I1].
    { left. exists a. destruct (Nat.eq_dec a a); [assumption|contradiction]. }
    destruct (in_dec Nat.eq_dec b (own a)) as [I2|I2]; [rewrite Hdead in Hb by assumption; contradiction|].
    rewrite Hsame in Hb by assumption. destruct (R8 b Hb) as [[a' Ha]|X]; [|now right].
    left. exists a'. destruct (Nat.eq_dec a' a) as [->|_]; [contradiction|assumption].
  - intros b Hb. destruct (Hlk b Hb) as [X Y]. rewrite Hsame by assumption. now apply R9.
  - now rewrite Hk.
Qed.

(** Forgetting an array without freeing its blocks. *)
Lemma rel_abandon w aw own lk w' aw' a :
  rel w aw own lk -> heap w' = heap w -> a_tick aw' = a_tick aw -> length (objs w') = length (arrs aw') ->
  a_leak aw' = (length (own a) + a_leak aw)%nat ->
  (forall a', a' <> a -> find w' a' = find w a') -> (forall a', a' <> a -> afind aw' a' = afind aw a') ->
  find w' a = None -> afind aw' a = None ->
  rel w' aw' (set_own own a []) (own a ++ lk).
Proof.
  intros HR Hh Ht Hl Hk Hfi Hafi Hn Han. destruct HR as [R1 R2 R3 R4 R5 R6 R7 R8 R9 R10].
  constructor; unfold set_own; rewrite ?Hh, ?Ht; auto.
  - intros a'. destruct (Nat.eq_dec a' a) as [->|Ha]; [now rewrite Hn, Han|].
    rewrite Hfi, Hafi by assumption. apply R4.
  - intros a1 a2 b. destruct (Nat.eq_dec a1 a) as [->|H1]; [intros []|].
    destruct (Nat.eq_dec a2 a) as [->|H2]; [intros _ []|]. apply R5.
  - intros a' b. destruct (Nat.eq_dec a' a) as [->|Ha]; [intros []|]. intros Hb X.
    apply in_app_iff in X. destruct X as [X|X]; [apply Ha; eapply R5; eassumption|eapply R6; eassumption].
  - assert (X : NoDup (own a)).
    { specialize (R4 a). unfold entry_ok in R4. destruct (find w a) as [[? ?]|], (afind aw a) as [[? ?]|]; try contradiction.
      - eapply rep_nodup. apply R4.
      - rewrite R4. constructor. }
    specialize (R6 a). clear - X R6 R7. induction X as [|b l Hb X IH]; [assumption|].
    cbn. constructor; [|apply IH; intros c Hc; apply R6; now right].
    intros Y. apply in_app_iff in Y. destruct Y as [Y|Y]; [contradiction|]. apply (R6 b); [now left|assumption].
  - intros b Hb. destruct (R8 b Hb) as [[a' Ha]|X]; [|right; apply in_app_iff; now right].
    destruct (Nat.eq_dec a' a) as [->|N]; [right; apply in_app_iff; now left|].
    left. exists a'. destruct (Nat.eq_dec a' a); [contradiction|assumption].
  - intros b Hb. apply in_app_iff in Hb. destruct Hb as [Hb|Hb]; [|now apply R9].
    eapply entry_live; [apply R4|eassumption].
  - rewrite app_length, Hk. now rewrite R10.
Qed.

(** ** The lists of arrays *)

Lemma find_upd m l a x a' :
  (a < length l)%nat -> find (mkWorld m (upd l a x) : world V) a' = if Nat.eq_dec a' a then x else find (mkWorld m l : world V) a'.
Proof.
  intros H. unfold find. cbn [objs]. destruct (Nat.eq_dec a' a) as [->|N].
  - rewrite nth_error_upd_eq by assumption. now destruct x as [[? ?]|].
  - rewrite nth_error_upd_ne by auto. reflexivity.
Qed.

Lemma afind_put t lk l a (x : option (kind * arr V)) a' :
  (a < length l)%nat -> afind (mkA t lk (put_nth l a x)) a' = if Nat.eq_dec a' a then x else afind (mkA t lk l) a'.
Proof.
  intros H. unfold afind. cbn [arrs]. rewrite put_nth_upd. destruct (Nat.eq_dec a' a) as [->|N].
  - rewrite nth_error_upd_eq by assumption. now destruct x as [[? ?]|].
  - rewrite nth_error_upd_ne by auto. reflexivity.
Qed.

Lemma nth_error_snoc {A} (l : list A) x k :
  nth_error (l ++ [x]) k = if Nat.eq_dec k (length l) then Some x else nth_error l k.
Proof.
  destruct (Nat.eq_dec k (length l)) as [->|N].
  - rewrite nth_error_app2, Nat.sub_diag by lia. reflexivity.
  - destruct (Nat.lt_ge_cases k (length l)) as [H|H]; [now rewrite nth_error_app1|].
    rewrite nth_error_app2 by lia. rewrite (proj2 (nth_error_None l k)) by lia.
    destruct (k - length l)%nat eqn:E; [lia|]. now destruct n.
Qed.

Lemma find_snoc m l x a' :
  find (mkWorld m (l ++ [x]) : world V) a' = if Nat.eq_dec a' (length l) then x else find (mkWorld m l : world V) a'.
Proof.
  unfold find. cbn [objs]. rewrite nth_error_snoc. destruct (Nat.eq_dec a' (length l)); [|reflexivity].
  now destruct x as [[? ?]|].
Qed.

Lemma afind_snoc t lk l (x : option (kind * arr V)) a' :
  afind (mkA t lk (l ++ [x])) a' = if Nat.eq_dec a' (length l) then x else afind (mkA t lk l) a'.
Proof.
  unfold afind. cbn [arrs]. rewrite nth_error_snoc. destruct (Nat.eq_dec a' (length l)); [|reflexivity].
  now destruct x as [[? ?]|].
Qed.

Lemma find_lt (w : world V) a x : find w a = Some x -> (a < length (objs w))%nat.
Proof.
  unfold find. destruct (nth_error (objs w) a) eqn:E; [|discriminate]. intros _.
  apply nth_error_Some. now rewrite E.
Qed.

Lemma rel_own_new w aw own lk : rel w aw own lk -> own (length (objs w)) = [].
Proof.
  intros [R1 R2 R3 R4 _ _ _ _ _ _]. specialize (R4 (length (objs w))). unfold entry_ok, find, afind in R4.
  rewrite (proj2 (nth_error_None (objs w) _)), (proj2 (nth_error_None (arrs aw) _)) in R4 by lia. exact R4.
Qed.

(** Both sides replace array [a]. *)
Lemma rel_upd w aw own lk m' t' a x y bs' :
  rel w aw own lk -> (a < length (objs w))%nat ->
  tick m' = t' -> fails m' = fails (heap w) -> entry_ok m' x y bs' ->
  (forall b, ~ In b (own a) -> ~ In b bs' -> block m' b = block (heap w) b) ->
  (forall b, In b bs' -> In b (own a) \/ block (heap w) b = None) ->
  (forall b, In b (own a) -> ~ In b bs' -> block m' b = None) ->
  rel (mkWorld m' (upd (objs w) a x)) (mkA t' (a_leak aw) (put_nth (arrs aw) a y)) (set_own own a bs') lk.
Proof.
  intros HR Ha Ht Hf He H1 H2 H3. pose proof (r_len _ _ _ _ HR) as Hl.
  eapply rel_set; eauto; cbn [heap objs arrs a_tick a_leak].
  - now rewrite upd_length, put_nth_length.
  - intros a' N. rewrite find_upd by assumption. destruct (Nat.eq_dec a' a); [contradiction|reflexivity].
  - intros a' N. rewrite afind_put by lia. destruct (Nat.eq_dec a' a); [contradiction|reflexivity].
  - rewrite find_upd, afind_put by lia. destruct (Nat.eq_dec a a); [assumption|contradiction].
Qed.

(** Both sides add an array. *)
Lemma rel_snoc w aw own lk m' t' x y bs' :
  rel w aw own lk ->
  tick m' = t' -> fails m' = fails (heap w) -> entry_ok m' x y bs' ->
  (forall b, ~ In b bs' -> block m' b = block (heap w) b) ->
  (forall b, In b bs' -> block (heap w) b = None) ->
  rel (mkWorld m' (objs w ++ [x])) (mkA t' (a_leak aw) (arrs aw ++ [y])) (set_own own (length (objs w)) bs') lk.
Proof.
  intros HR Ht Hf He H1 H2. pose proof (r_len _ _ _ _ HR) as Hl. pose proof (rel_own_new _ _ _ _ HR) as Hn.
  eapply rel_set; eauto; cbn [heap objs arrs a_tick a_leak].
  - rewrite !app_length. cbn. lia.
  - intros a' N. rewrite find_snoc. destruct (Nat.eq_dec a' (length (objs w))); [contradiction|reflexivity].
  - intros a' N. rewrite afind_snoc. destruct (Nat.eq_dec a' (length (arrs aw))); [lia|reflexivity].
  - rewrite find_snoc, afind_snoc.
    destruct (Nat.eq_dec _ (length (objs w))); [|contradiction].
    destruct (Nat.eq_dec _ (length (arrs aw))); [assumption|lia].
  - rewrite Hn. intros b [].
Qed.

Lemma rel_kind w aw own lk a k x :
  rel w aw own lk -> afind aw a = Some (k, x) ->
  exists o, find w a = Some (k, o) /\ kok k /\ rep k (heap w) o x (own a) /\ (a < length (objs w))%nat.
Proof.
  intros HR Ha. pose proof (r_arr _ _ _ _ HR a) as H. rewrite Ha in H. unfold entry_ok in H.
  destruct (find w a) as [[k' o]|] eqn:E; [|contradiction]. destruct H as (-> & H1 & H2).
  exists o. conjs; auto. eapply find_lt; eassumption.
Qed.

(** New blocks do not touch old ones. *)
Lemma grown_other m m' bs b : grown m m' bs -> ~ In b bs -> block m' b = block m b.
Proof.
  intros (H1 & H2 & H3 & H4) Hb. destruct (Nat.lt_ge_cases b (length (blocks m))) as [L|L]; [now apply H4|].
  rewrite !block_beyond; auto. destruct (Nat.lt_ge_cases b (length (blocks m'))); [|assumption].
  exfalso. apply Hb. rewrite H2. apply in_seq. lia.
Qed.

Lemma grown_fresh m m' bs b : grown m m' bs -> In b bs -> (length (blocks m) <= b)%nat.
Proof. intros (H1 & H2 & H3 & H4) Hb. rewrite H2 in Hb. apply in_seq in Hb. lia. Qed.

(** ** Simulation of one call *)

Definition sim (w : world V) (aw : aworld V) (c : op V) : Prop :=
  exists w' own' lk', step true w c = Some (w', snd (astep F aw c)) /\ rel w' (fst (astep F aw c)) own' lk'.

Lemma kok_of k : kind_ok k -> k_N k =? 0 = false -> kok k.
Proof. unfold kind_ok, kok. intros H E. apply Z.eqb_neq in E. lia. Qed.

Lemma a_alloc_result f t k gs :
  let '(c, a, r) := @a_alloc V f t k gs in
  match r with
  | RDone => match a with ABroken _ _ => False | _ => True end
  | RExn _ => match a with ALive _ _ => False | _ => True end
  | _ => False
  end.
Proof.
  unfold a_alloc. destruct (bad_dim 0 gs); [exact I|].
  destruct (vol (slot_box gs (k_locs k)) =? 0); [exact I|].
  destruct (first_fail f t (length (k_locs k))) as [[|j]|]; exact I.
Qed.

Lemma sim_new w aw own lk k : rel w aw own lk -> kind_ok k -> sim w aw (New k).
Proof.
  intros HR Hk. unfold sim. cbn [step astep]. unfold construct. destruct (k_N k =? 0) eqn:E.
  - apply Z.eqb_eq in E. rewrite ctor_zero by assumption. cbn [fst snd].
    do 3 eexists. split; [reflexivity|]. eapply rel_snoc with (bs' := []); eauto; try reflexivity.
    + apply (r_tick _ _ _ _ HR).
    + intros b [].
  - pose proof (kok_of k Hk E) as HN. destruct (ctor_ok k (heap w) HN) as (o & -> & He). cbn [fst snd].
    do 3 eexists. split; [reflexivity|]. eapply rel_snoc with (bs' := []); eauto; try reflexivity.
    + apply (r_tick _ _ _ _ HR).
    + cbn; conjs; auto.
    + intros b [].
Qed.

Lemma sim_new_sized w aw own lk k gs :
  rel w aw own lk -> kind_ok k -> shape_arg k gs -> sim w aw (NewSized k gs).
Proof.
  intros HR Hk Hg. unfold sim. cbn [step astep]. unfold construct. destruct (k_N k =? 0) eqn:E.
  - apply Z.eqb_eq in E. rewrite ctor_sized_zero by (assumption || apply Hg). cbn [fst snd].
    do 3 eexists. split; [reflexivity|]. eapply rel_snoc with (bs' := []); eauto; try reflexivity.
    + apply (r_tick _ _ _ _ HR).
    + intros b [].
  - pose proof (kok_of k Hk E) as HN. rewrite ctor_sized_eq by apply Hg. unfold bind.
    destruct (ctor_ok k (heap w) HN) as (o & -> & He).
    pose proof (alloc_ok true k (heap w) o gs HN Hg He) as HA.
    rewrite (r_fails _ _ _ _ HR), (r_tick _ _ _ _ HR) in HA.
    pose proof (a_alloc_result F (a_tick aw) k gs) as HT.
    destruct (a_alloc F (a_tick aw) k gs) as [[t a] r].
    destruct HA as (m' & o' & bs & -> & Hr & Hgr & Ht & _).
    assert (H1 : forall b, ~ In b bs -> block m' b = block (heap w) b) by (intros; eapply grown_other; eassumption).
    assert (H2 : forall b, In b bs -> block (heap w) b = None).
    { intros b Hb. apply block_beyond. eapply grown_fresh; eassumption. }
    assert (H3 : fails m' = fails (heap w)) by apply Hgr.
    pose proof (rel_snoc w aw own lk m' (a_tick aw + t)%nat (Some (k, o')) (Some (k, a)) bs HR) as RS.
    destruct r; try contradiction; cbn [outcome fst snd].
    + do 3 eexists. split; [reflexivity|]. apply RS; auto. cbn; conjs; auto.
    + do 3 eexists. split; [reflexivity|].
      assert (HR2 := RS ltac:(assumption) H3 ltac:(cbn; conjs; auto) H1 H2).
      eapply rel_abandon with (a := length (objs w)); [exact HR2|reflexivity|reflexivity|..];
        cbn [objs arrs a_leak]; pose proof (r_len _ _ _ _ HR) as Hl.
      * rewrite !app_length. cbn. lia.
      * unfold set_own. destruct (Nat.eq_dec _ _); [|contradiction].
        destruct a; try contradiction; cbn in Hr.
        -- destruct Hr as [_ ->]. reflexivity.
        -- destruct Hr as (_ & _ & _ & ->). lia.
      * intros a' N. rewrite !find_snoc. destruct (Nat.eq_dec a' (length (objs w))); [contradiction|reflexivity].
      * intros a' N. rewrite !afind_snoc. destruct (Nat.eq_dec a' (length (arrs aw))); [lia|reflexivity].
      * rewrite find_snoc. destruct (Nat.eq_dec _ _); [reflexivity|contradiction].
      * rewrite afind_snoc. destruct (Nat.eq_dec _ _); [reflexivity|lia].
Qed.

Lemma a_same (aw : aworld V) : mkA (a_tick aw) (a_leak aw) (arrs aw) = aw.
Proof. now destruct aw. Qed.

Lemma upd_same {A} (l : list A) a x : nth_error l a = Some x -> upd l a x = l.
Proof. revert a. induction l as [|y l IH]; intros [|a]; cbn; intros H; try reflexivity; [congruence|now rewrite IH]. Qed.

Lemma find_nth (w : world V) a x : find w a = Some x -> nth_error (objs w) a = Some (Some x).
Proof. unfold find. destruct (nth_error (objs w) a) as [[?|]|]; congruence. Qed.

(** A call that changes nothing. *)
Lemma world_same (w : world V) a k o : find w a = Some (k, o) -> mkWorld (heap w) (set_obj (objs w) a (Some (k, o))) = w.
Proof. intros H. unfold set_obj. rewrite upd_same by now apply find_nth. now destruct w. Qed.

Lemma sim_alloc w aw own lk a gs :
  rel w aw own lk -> exists_arr aw a (fun k _ => shape_arg k gs) -> sim w aw (Alloc a gs).
Proof.
  intros HR Hg. unfold sim, exists_arr in *. cbn [step astep]. unfold on_obj.
  destruct (afind aw a) as [[k x]|] eqn:Ea; [|contradiction].
  destruct (rel_kind _ _ _ _ _ _ _ HR Ea) as (o & Ho & HN & Hr & Hlt). rewrite Ho.
  assert (X : x = AEmpty \/ x <> AEmpty) by (destruct x; [left; reflexivity|right; discriminate..]).
  destruct X as [->|X].
  - destruct Hr as [He Hb].
    pose proof (alloc_ok true k (heap w) o gs HN Hg He) as HA.
    rewrite (r_fails _ _ _ _ HR), (r_tick _ _ _ _ HR) in HA.
    pose proof (a_alloc_result F (a_tick aw) k gs) as HT.
    destruct (a_alloc F (a_tick aw) k gs) as [[t y] r].
    destruct HA as (m' & o' & bs & -> & Hr & Hgr & Ht & _). cbn [fst snd].
    exists (mkWorld m' (set_obj (objs w) a (Some (k, o')))). do 2 eexists. split; [destruct r; try contradiction; reflexivity|].
    eapply rel_upd with (bs' := bs); eauto.
    + apply Hgr.
    + cbn; conjs; auto.
    + intros b _ Hn. eapply grown_other; eassumption.
    + intros b Hi. right. apply block_beyond. eapply grown_fresh; eassumption.
    + rewrite Hb. intros b [].
  - rewrite (alloc_full true k _ o x (own a)) by (assumption || apply Hg).
    rewrite world_same by assumption. destruct x; try contradiction; do 3 eexists; split; try reflexivity; exact HR.
Qed.

Lemma sim_clear w aw own lk a :
  rel w aw own lk -> exists_arr aw a (fun _ _ => True) -> sim w aw (Clear a).
Proof.
  intros HR Hg. unfold sim, exists_arr in *. cbn [step astep]. unfold on_obj.
  destruct (afind aw a) as [[k x]|] eqn:Ea; [|contradiction].
  destruct (rel_kind _ _ _ _ _ _ _ HR Ea) as (o & Ho & HN & Hr & Hlt). rewrite Ho.
  assert (X : x = AEmpty \/ x <> AEmpty) by (destruct x; [left; reflexivity|right; discriminate..]).
  destruct X as [->|X].
  - rewrite clear_empty by apply Hr. rewrite world_same by assumption. do 3 eexists. split; [reflexivity|exact HR].
  - destruct (clear_ok k (heap w) o x (own a) HN Hr X) as (o' & -> & He).
    do 3 eexists. split; [destruct x; try contradiction; reflexivity|].
    replace (fst (match x with AEmpty => (aw, RExn EClearEmpty) | _ => (with_arr aw a (Some (k, AEmpty)), RDone) end))
      with (with_arr aw a (Some (k, AEmpty : arr V))) by (destruct x; try contradiction; reflexivity).
    eapply rel_upd with (bs' := []); eauto.
    + rewrite kill_tick. apply (r_tick _ _ _ _ HR).
    + apply kill_fails.
    + cbn; conjs; auto.
    + intros b Hb _. rewrite kill_block. destruct (in_dec Nat.eq_dec b (own a)); [contradiction|reflexivity].
    + intros b [].
    + intros b Hb _. rewrite kill_block. destruct (in_dec Nat.eq_dec b (own a)); [reflexivity|contradiction].
Qed.

Lemma sim_destroy w aw own lk a :
  rel w aw own lk -> exists_arr aw a (fun _ _ => True) -> sim w aw (Destroy a).
Proof.
  intros HR Hg. unfold sim, exists_arr in *. cbn [step astep]. unfold on_obj.
  destruct (afind aw a) as [[k x]|] eqn:Ea; [|contradiction].
  destruct (rel_kind _ _ _ _ _ _ _ HR Ea) as (o & Ho & HN & Hr & Hlt). rewrite Ho.
  destruct (dtor_ok k (heap w) o x (own a) HN Hr) as (o' & ->).
  do 3 eexists. split; [reflexivity|]. cbn [heap objs fst]. unfold set_obj.
  replace (upd (upd (objs w) a (Some (k, o'))) a None) with (upd (objs w) a None).
  2:{ generalize (objs w). clear. intros l. revert a. induction l as [|y l IH]; intros [|a]; cbn; try reflexivity.
      now rewrite <- IH. }
  eapply rel_upd with (bs' := []); eauto.
  - rewrite kill_tick. apply (r_tick _ _ _ _ HR).
  - apply kill_fails.
  - reflexivity.
  - intros b Hb _. rewrite kill_block. destruct (in_dec Nat.eq_dec b (own a)); [contradiction|reflexivity].
  - intros b [].
  - intros b Hb _. rewrite kill_block. destruct (in_dec Nat.eq_dec b (own a)); [reflexivity|contradiction].
Qed.

Lemma sim_realloc w aw own lk a gs :
  rel w aw own lk -> exists_arr aw a (fun k _ => shape_arg k gs) -> sim w aw (Realloc a gs).
Proof.
  intros HR Hg. unfold sim, exists_arr in *. cbn [step astep]. unfold on_obj.
  destruct (afind aw a) as [[k x]|] eqn:Ea; [|contradiction].
  destruct (rel_kind _ _ _ _ _ _ _ HR Ea) as (o & Ho & HN & Hr & Hlt). rewrite Ho.
  rewrite realloc_eq by (assumption || exact (rep_class _ _ _ _ _ Hr)).
  destruct (bad_dim 0 gs) as [d|].
  { rewrite world_same by assumption. do 3 eexists. split; [reflexivity|exact HR]. }
  unfold bind.
  assert (X : x = AEmpty \/ x <> AEmpty) by (destruct x; [left; reflexivity|right; discriminate..]).
  destruct X as [->|X].
  - rewrite clear_empty by apply Hr. rewrite world_same by assumption. do 3 eexists. split; [reflexivity|exact HR].
  - destruct (clear_ok k (heap w) o x (own a) HN Hr X) as (o1 & -> & He).
    pose proof (alloc_ok true k (kill (heap w) (own a)) o1 gs HN Hg He) as HA.
    rewrite kill_fails, kill_tick, (r_fails _ _ _ _ HR), (r_tick _ _ _ _ HR) in HA.
    pose proof (a_alloc_result F (a_tick aw) k gs) as HT.
    destruct (a_alloc F (a_tick aw) k gs) as [[t y] r].
    destruct HA as (m' & o' & bs & -> & Hr' & Hgr & Ht & _).
    exists (mkWorld m' (set_obj (objs w) a (Some (k, o')))).
    assert (Hlive : forall b, In b (own a) -> ~ In b bs).
    { intros b Hb Hi. apply (grown_fresh _ _ _ _ Hgr) in Hi. rewrite kill_blocks in Hi.
      apply (rep_live _ _ _ _ _ _ Hr) in Hb. apply Hb. now apply block_beyond. }
    do 2 eexists. split; [destruct x, r; try contradiction; reflexivity|].
    replace (fst _) with (mkA (a_tick aw + t) (a_leak aw) (put_nth (arrs aw) a (Some (k, y))))
      by (destruct x; try contradiction; reflexivity).
    eapply rel_upd with (bs' := bs); eauto.
    + destruct Hgr as [-> _]. apply kill_fails.
    + cbn; conjs; auto.
    + intros b Ho1 Hn. rewrite (grown_other _ _ _ _ Hgr Hn), kill_block.
      destruct (in_dec Nat.eq_dec b (own a)); [contradiction|reflexivity].
    + intros b Hi. right. apply block_beyond. apply (grown_fresh _ _ _ _ Hgr) in Hi. now rewrite kill_blocks in Hi.
    + intros b Hb Hn. rewrite (grown_other _ _ _ _ Hgr Hn), kill_block.
      destruct (in_dec Nat.eq_dec b (own a)); [reflexivity|contradiction].
Qed.

Lemma sim_size w aw own lk a :
  rel w aw own lk -> exists_arr aw a (fun _ _ => True) -> sim w aw (Size a).
Proof.
  intros HR Hg. unfold sim, exists_arr in *. cbn [step astep].
  destruct (afind aw a) as [[k x]|] eqn:Ea; [|contradiction].
  destruct (rel_kind _ _ _ _ _ _ _ HR Ea) as (o & Ho & HN & Hr & Hlt). rewrite Ho.
  rewrite (rep_size _ _ _ _ _ Hr). do 3 eexists. split; [reflexivity|exact HR].
Qed.

(** Reading and writing one element of a live array. *)
Lemma fetch_ok m b B N (f : content V) n q :
  holds m b B N f -> 0 <= n < N -> in_box B q -> fetch m (Ptr b (lin B n q)) = Ok (f n q).
Proof.
  intros H Hn Hq. unfold fetch. rewrite (holds_load _ _ _ _ _ _ _ H Hn Hq). cbn. now destruct (f n q).
Qed.

Lemma put_rep k m m' o gs f bs n q v :
  rep k m o (ALive gs f) bs -> 0 <= n < k_N k -> in_box (sbox k gs) q ->
  store (Ptr (hd O bs) (lin (sbox k gs) n q)) (CVal v) m = Ret m' tt ->
  same_but [hd O bs] m m' ->
  holds m' (hd O bs) (sbox k gs) (k_N k) (put_at f n q (Some v)) ->
  rep k m' o (ALive gs (put_at f n q (Some v))) bs.
Proof.
  intros Hr Hn Hq Hst Hs Hh. pose proof (rep_nodup _ _ _ _ _ Hr) as Hnd. destruct Hr as (H1 & H2 & H3 & H4).
  split; [exact H1|]. split; [exact H2|]. split; [|exact Hh]. eapply liv_frame; [| |exact H3].
  - intros b Hb. destruct Hs as (_ & _ & _ & Hs). apply Hs. intros [<-|[]].
    destruct bs as [|b0 bs]; [contradiction|]. inversion Hnd. contradiction.
  - intros len. now apply store_lens with (1 := Hst).
Qed.

Lemma hd_own k m o gs (f : content V) bs : rep k m o (ALive gs f) bs -> In (hd O bs) bs.
Proof.
  intros (_ & _ & H & _). destruct bs; [|now left].
  destruct k, o, gs as [|? [|? [|? [|? ?]]]]; contradiction.
Qed.

Lemma rel_put w aw own lk a k o gs f n q v :
  rel w aw own lk -> find w a = Some (k, o) -> kok k -> rep k (heap w) o (ALive gs f) (own a) ->
  0 <= n < k_N k -> in_box (sbox k gs) q ->
  exists m', store (Ptr (hd O (own a)) (lin (sbox k gs) n q)) (CVal v) (heap w) = Ret m' tt /\
    rel (mkWorld m' (objs w)) (with_arr aw a (Some (k, ALive gs (put_at f n q (Some v))))) (set_own own a (own a)) lk.
Proof.
  intros HR Hf HN Hr Hn Hq. pose proof Hr as (H1 & H2 & H3 & H4).
  destruct (holds_store _ _ _ _ _ n q (Some v) H4 Hn Hq) as (m' & Hst & Hs & Hh). exists m'. split; [exact Hst|].
  assert (E : objs w = upd (objs w) a (Some (k, o))) by (symmetry; apply upd_same; now apply find_nth).
  rewrite E. pose proof Hs as (S1 & S2 & S3 & S4).
  eapply rel_upd; eauto.
  - eapply find_lt; eassumption.
  - rewrite S3. apply (r_tick _ _ _ _ HR).
  - unfold entry_ok. split; [reflexivity|]. split; [assumption|]. eapply put_rep; eassumption.
  - intros b Hb _. apply S4. intros [<-|[]]. apply Hb. eapply hd_own; eassumption.
  - intros b Hb Hb'. contradiction.
Qed.

Lemma sim_read w aw own lk a n q fl :
  rel w aw own lk -> legal_access aw a n q fl -> sim w aw (Read a n q fl).
Proof.
  intros HR Hg. unfold sim, legal_access, exists_arr in *. cbn [step astep].
  destruct (afind aw a) as [[k x]|] eqn:Ea; [|contradiction].
  destruct (rel_kind _ _ _ _ _ _ _ HR Ea) as (o & Ho & HN & Hr & Hlt). rewrite Ho.
  destruct Hg as (Hn & Hlq & Hlf & Hq & Hb). unfold on_mem, gets.
  destruct x as [|gs f|gs nb].
  - rewrite at_empty by (assumption || apply Hr). cbn. do 3 eexists. split; [destruct w; reflexivity|exact HR].
  - rewrite (at_live k (heap w) o gs f (own a)) by (assumption || apply Hn). cbn [a_shape].
    destruct (access_error (k_N k) (k_locs k) gs n q fl) eqn:Ex.
    + cbn. do 3 eexists. split; [destruct w; reflexivity|exact HR].
    + pose proof Hr as (H1 & H2 & H3 & H4).
      apply access_none in Ex; try assumption; [|now apply H1]. destruct Ex as [Hn' Hi].
      cbn [rbind lift]. unfold lift. rewrite (fetch_ok _ _ _ _ _ _ _ H4) by (assumption || (destruct Hn; lia)).
      cbn. do 3 eexists. split; [destruct w; reflexivity|exact HR].
  - cbn [a_shape]. destruct (access_error (k_N k) (k_locs k) gs n q fl) eqn:Ex; [|contradiction].
    rewrite (at_broken k (heap w) o gs nb (own a) n q fl e) by assumption.
    cbn. do 3 eexists. split; [destruct w; reflexivity|exact HR].
Qed.

Lemma sim_write w aw own lk a n q fl v :
  rel w aw own lk -> legal_access aw a n q fl -> sim w aw (Write a n q fl v).
Proof.
  intros HR Hg. unfold sim, legal_access, exists_arr in *. cbn [step astep].
  destruct (afind aw a) as [[k x]|] eqn:Ea; [|contradiction].
  destruct (rel_kind _ _ _ _ _ _ _ HR Ea) as (o & Ho & HN & Hr & Hlt). rewrite Ho.
  destruct Hg as (Hn & Hlq & Hlf & Hq & Hb). unfold on_mem, gets, bind.
  destruct x as [|gs f|gs nb].
  - rewrite at_empty by (assumption || apply Hr). cbn. do 3 eexists. split; [destruct w; reflexivity|exact HR].
  - rewrite (at_live k (heap w) o gs f (own a)) by (assumption || apply Hn). cbn [a_shape].
    destruct (access_error (k_N k) (k_locs k) gs n q fl) eqn:Ex.
    + cbn. do 3 eexists. split; [destruct w; reflexivity|exact HR].
    + pose proof Hr as (H1 & H2 & H3 & H4).
      apply access_none in Ex; try assumption; [|now apply H1]. destruct Ex as [Hn' Hi].
      destruct (rel_put w aw own lk a k o gs f n (slot_of q fl) v HR Ho HN Hr) as (m' & Hst & HR');
        [destruct Hn; lia|assumption|]. unfold lift. cbn [fst snd].
      fold (sbox k gs) in *. rewrite Hst. do 3 eexists. split; [reflexivity|exact HR'].
  - cbn [a_shape]. destruct (access_error (k_N k) (k_locs k) gs n q fl) eqn:Ex; [|contradiction].
    rewrite (at_broken k (heap w) o gs nb (own a) n q fl e) by assumption.
    cbn. do 3 eexists. split; [destruct w; reflexivity|exact HR].
Qed.

(** A row-major address names one element. *)
Lemma addr_point B N p :
  ordered B -> 0 < vol B -> 0 <= p < N * vol B ->
  0 <= p / vol B < N /\ in_box B (point_at B (p mod vol B)) /\ lin B (p / vol B) (point_at B (p mod vol B)) = p.
Proof.
  intros Ho Hv Hp. destruct (lin_surj_N B N p Ho Hp) as (n & q & Hn & Hq & E).
  pose proof (lin_range B q 0 Hq) as Hl. rewrite lin_acc in E by assumption.
  assert (E1 : p / vol B = n) by (symmetry; apply Z.div_unique with (r := lin B 0 q); lia).
  assert (E2 : p mod vol B = lin B 0 q) by (symmetry; apply Z.mod_unique with (q := n); lia).
  assert (E3 : point_at B (p mod vol B) = q).
  { unfold point_at. rewrite E2. apply nth_error_nth. now apply nth_error_points. }
  rewrite E1, E3. conjs; try lia; try assumption. rewrite lin_acc by assumption. lia.
Qed.

Lemma rep_elem k m o gs (f : content V) bs n off :
  kok k -> rep k m o (ALive gs f) bs -> 0 <= n < k_N k ->
  0 <= n * vol (sbox k gs) + off < k_N k * vol (sbox k gs) ->
  elem m (m_data_pt true k m o n) off = Ok (Ptr (hd O bs) (n * vol (sbox k gs) + off)).
Proof.
  intros HN Hr Hn Ho. rewrite (data_pt_ok true k m o gs f bs n) by assumption. cbn.
  destruct Hr as (_ & _ & _ & H4). eapply pidx_blen; [eapply holds_blen; exact H4|assumption].
Qed.

Lemma rep_ordered k m o gs (f : content V) bs : rep k m o (ALive gs f) bs -> ordered (sbox k gs).
Proof. intros (H & _). apply slot_box_ordered. apply H. Qed.

Lemma sim_data_read w aw own lk a n off :
  rel w aw own lk -> legal_data aw a n off -> sim w aw (DataRead a n off).
Proof.
  intros HR Hg. unfold sim, legal_data, exists_arr in *. cbn [step astep].
  destruct (afind aw a) as [[k x]|] eqn:Ea; [|contradiction].
  destruct (rel_kind _ _ _ _ _ _ _ HR Ea) as (o & Ho & HN & Hr & Hlt). rewrite Ho.
  destruct Hg as (Hn & Hb). unfold on_mem, gets. destruct (k_N k <=? n) eqn:E.
  - apply Z.leb_le in E. rewrite (data_pt_err k (heap w) o x (own a)) by assumption. cbn.
    do 3 eexists. split; [destruct w; reflexivity|exact HR].
  - apply Z.leb_gt in E. specialize (Hb E). destruct x as [|gs f|gs nb]; try contradiction. cbn zeta in Hb.
    fold (sbox k gs) in *.
    rewrite (rep_elem k (heap w) o gs f (own a)) by (assumption || (destruct Hn; lia)).
    destruct (addr_point (sbox k gs) (k_N k) (n * vol (sbox k gs) + off)) as (A1 & A2 & A3);
      [eapply rep_ordered; eassumption|apply Hr|assumption|].
    replace (Ptr (hd O (own a)) (n * vol (sbox k gs) + off))
      with (Ptr (hd O (own a)) (lin (sbox k gs) ((n * vol (sbox k gs) + off) / vol (sbox k gs))
                                   (point_at (sbox k gs) ((n * vol (sbox k gs) + off) mod vol (sbox k gs)))))
      by now rewrite A3.
    cbn [rbind]. rewrite (fetch_ok _ _ _ _ f) by (assumption || apply Hr).
    cbn. do 3 eexists. split; [destruct w; reflexivity|exact HR].
Qed.

Lemma sim_data_write w aw own lk a n off v :
  rel w aw own lk -> legal_data aw a n off -> sim w aw (DataWrite a n off v).
Proof.
  intros HR Hg. unfold sim, legal_data, exists_arr in *. cbn [step astep].
  destruct (afind aw a) as [[k x]|] eqn:Ea; [|contradiction].
  destruct (rel_kind _ _ _ _ _ _ _ HR Ea) as (o & Ho & HN & Hr & Hlt). rewrite Ho.
  destruct Hg as (Hn & Hb). unfold on_mem, gets, bind. destruct (k_N k <=? n) eqn:E.
  - apply Z.leb_le in E. rewrite (data_pt_err k (heap w) o x (own a)) by assumption. cbn.
    do 3 eexists. split; [destruct w; reflexivity|exact HR].
  - apply Z.leb_gt in E. specialize (Hb E). destruct x as [|gs f|gs nb]; try contradiction. cbn zeta in Hb.
    fold (sbox k gs) in *.
    rewrite (rep_elem k (heap w) o gs f (own a)) by (assumption || (destruct Hn; lia)).
    destruct (addr_point (sbox k gs) (k_N k) (n * vol (sbox k gs) + off)) as (A1 & A2 & A3);
      [eapply rep_ordered; eassumption|apply Hr|assumption|].
    unfold lift.
    destruct (rel_put w aw own lk a k o gs f _ _ v HR Ho HN Hr A1 A2) as (m' & Hst & HR').
    rewrite A3 in Hst. rewrite Hst. do 3 eexists. split; [reflexivity|exact HR'].
Qed.

(** ** Copies *)

Lemma rep_shape_ok k m o (x : arr V) bs : rep k m o x bs -> Forall shape_ok (m_size o).
Proof.
  intros H. rewrite (rep_size _ _ _ _ _ H). destruct x as [|gs f|gs nb]; cbn; [|apply H..].
  assert (shape_ok (0, 0, 0)) by (cbn; lia). destruct k; cbn; repeat constructor; lia.
Qed.

Lemma kind_eqb_refl k : kind_eqb k k = true.
Proof.
  destruct k; cbn; rewrite Z.eqb_refl; repeat match goal with l : loc |- _ => destruct l end; reflexivity.
Qed.

Lemma sim_copy_core w aw own lk d s (R r : kind -> arr V -> box) (A a : box -> list Z)
  (f : kind -> obj -> obj -> bool -> M (mem V) unit) :
  rel w aw own lk -> legal_copy aw d s R r A a ->
  (forall k x y od os,
     afind aw d = Some (k, x) -> afind aw s = Some (k, y) ->
     kok k -> rep k (heap w) od x (own d) -> rep k (heap w) os y (own s) ->
     copy_fits (R k x) (r k y) (A (R k x)) (a (r k y)) -> length (R k x) = length (k_locs k) ->
     f k od os (Nat.eqb d s) (heap w) =
     match copy_error (k_locs k) (Nat.eqb d s) (R k x) (r k y) (A (R k x)) (a (r k y)) with
     | Some e => Thr (heap w) e
     | None => copy_run k od os (copy_box (k_locs k) (R k x) (r k y) (A (R k x)) (a (r k y)))
                        (vsub (A (R k x)) (a (r k y))) (heap w)
     end) ->
  exists w' own' lk', on_two w d s f = Some (w', snd (a_copy aw d s R r A a)) /\
                      rel w' (fst (a_copy aw d s R r A a)) own' lk'.
Proof.
  intros HR Hg Hf. unfold legal_copy, exists_arr, on_two, a_copy in *.
  destruct (afind aw d) as [[k x]|] eqn:Ed; [|contradiction].
  destruct (afind aw s) as [[k' y]|] eqn:Es; [|contradiction].
  destruct Hg as (<- & Hl & Hfit & Hg).
  destruct (rel_kind _ _ _ _ _ _ _ HR Ed) as (od & Hod & HN & Hrd & Hltd).
  destruct (rel_kind _ _ _ _ _ _ _ HR Es) as (os & Hos & _ & Hrs & Hlts).
  rewrite Hod, Hos, kind_eqb_refl. unfold on_mem.
  rewrite (Hf k x y od os) by auto. clear Hf.
  set (R0 := R k x) in *. set (r0 := r k y) in *. set (A0 := A R0) in *. set (a0 := a r0) in *.
  destruct (copy_error (k_locs k) (d =? s)%nat R0 r0 A0 a0) eqn:Ee.
  { do 3 eexists. split; [destruct w; reflexivity|exact HR]. }
  specialize (Hg eq_refl).
  set (B := copy_box (k_locs k) R0 r0 A0 a0) in *.
  assert (HE : (forall q, ~ in_box B q) -> (forall gd fd gs fs, ~ (x = ALive gd fd /\ y = ALive gs fs)) ->
    exists w' own' lk', 
      match copy_run k od os B (vsub A0 a0) (heap w) with
      | Ret m _ => Some (mkWorld m (objs w), RDone) | Thr m e => Some (mkWorld m (objs w), RExn e) | Undef => None
      end = Some (w', @RDone V) /\ rel w' aw own' lk').
  { intros H _. rewrite copy_run_empty by assumption. exists w, own, lk. split; [now destruct w|exact HR]. }
  destruct x as [|gd fd|gd nd]; try (apply HE; [exact Hg|intros; intros [? ?]; discriminate]).
  destruct y as [|gs fs|gs ns]; try (apply HE; [exact Hg|intros; intros [? ?]; discriminate]).
  clear HE. pose proof Hrd as (D1 & D2 & D3 & D4). pose proof Hrs as (S1 & S2 & S3 & S4).
  pose proof (rep_nodup _ _ _ _ _ Hrd) as Hnd. pose proof (hd_own _ _ _ _ _ _ Hrd) as Hhd.
  pose proof (hd_own _ _ _ _ _ _ Hrs) as Hhs.
  assert (Hdd : ~ In (hd O (own d)) (tl (own d))).
  { destruct (own d) as [|b0 bs]; [contradiction|]. inversion Hnd. assumption. }
  assert (Hds : ~ In (hd O (own d)) (tl (own s))).
  { intros X. assert (In (hd O (own d)) (own s)) by (destruct (own s); [contradiction|now right]).
    assert (d = s) by (eapply (r_disj _ _ _ _ HR); eassumption). subst s. contradiction. }
  destruct (copy_run_ok k od os gd gs (own d) (own s) fd fs B (vsub A0 a0) (heap w)) as (m' & -> & Hs & Hbl & Hh); auto.
  - intros n q n' q' Hn Hn' Hq Hq' E. injection E as E1 E2.
    assert (d = s). { eapply (r_disj _ _ _ _ HR); [exact Hhd|]. rewrite E1. exact Hhs. } subst s.
    rewrite Ed in Es. injection Es as <- <-.
    destruct (Hg q Hq) as [G1 G2]. destruct (Hg q' Hq') as [G3 G4].
    apply lin_inj in E2; try assumption. destruct E2 as [_ E2].
    rewrite Nat.eqb_refl in Ee.
    apply (guard_sound (k_locs k) R0 r0 A0 a0 q q' Hl Hfit Ee Hq Hq'). now symmetry.
  - exists (mkWorld m' (objs w)), (set_own own d (own d)), lk. split; [reflexivity|]. cbn [fst].
    assert (E : objs w = upd (objs w) d (Some (k, od))) by (symmetry; apply upd_same; now apply find_nth).
    rewrite E. pose proof Hs as (T1 & T2 & T3 & T4).
    eapply rel_upd; eauto.
    + rewrite T3. apply (r_tick _ _ _ _ HR).
    + unfold entry_ok. split; [reflexivity|]. split; [assumption|]. split; [assumption|]. split; [assumption|].
      split; [|exact Hh]. eapply liv_frame; [| |exact D3].
      * intros b Hb. apply T4. intros [<-|[]]. contradiction.
      * intros len. apply Hbl.
    + intros b Hb _. apply T4. intros [<-|[]]. contradiction.
    + intros b Hb Hb'. contradiction.
Qed.

Lemma range_box_length R : length (range_box R) = length R.
Proof. apply map_length. Qed.

Lemma sim_copy w aw own lk d s R r A a :
  rel w aw own lk -> legal aw (Copy d s R r A a) -> sim w aw (Copy d s R r A a).
Proof.
  intros HR (H1 & H2 & H3). unfold sim. cbn [step astep]. eapply sim_copy_core; eauto.
  intros k x y od os Hd Hs HN Hrd Hrs Hfit Hl. rewrite range_box_length in Hl.
  apply m_copy_eq; auto; eapply rep_class; eassumption.
Qed.

Lemma sim_copy_fl w aw own lk d s R r fl :
  rel w aw own lk -> legal aw (CopyFl d s R r fl) -> sim w aw (CopyFl d s R r fl).
Proof.
  intros HR (H1 & H2 & H3 & H4). unfold sim. cbn [step astep]. eapply sim_copy_core; eauto.
  intros k x y od os Hd Hs HN Hrd Hrs Hfit Hl. rewrite range_box_length in Hl.
  pose proof (rep_class _ _ _ _ _ Hrd). pose proof (rep_class _ _ _ _ _ Hrs).
  destruct (copy_fits_edges _ _ _ _ Hfit).
  rewrite m_copy_fl_eq by (assumption || congruence). apply m_copy_eq; auto.
Qed.

Lemma sim_copy_tag w aw own lk d s R r A a :
  rel w aw own lk -> legal aw (CopyTag d s R r A a) -> sim w aw (CopyTag d s R r A a).
Proof.
  intros HR (H1 & H2 & H3). unfold sim. cbn [step astep]. eapply sim_copy_core; eauto.
  intros k x y od os Hd Hs HN Hrd Hrs Hfit Hl. unfold tag_box in *.
  unfold exists_arr in H2. rewrite Hd in H2.
  pose proof (rep_class _ _ _ _ _ Hrd) as Cd. pose proof (rep_class _ _ _ _ _ Hrs) as Cs.
  rewrite <- (rep_size _ _ _ _ _ Hrd), <- (rep_size _ _ _ _ _ Hrs) in *.
  pose proof (m_size_length k od Cd) as Ld. pose proof (m_size_length k os Cs) as Ls.
  assert (LA : length A = length (k_locs k) /\ length a = length (k_locs k)).
  { revert Hfit Hl. generalize (regions (m_size od) R) (regions (m_size os) r) (k_locs k). clear.
    intros B C. revert C A a. induction B as [|b B IH]; intros [|c C] [|x A] [|y a] ls Hf Hl; cbn in Hf; try contradiction.
    - destruct ls; [split; reflexivity|discriminate].
    - destruct ls as [|l ls]; [discriminate|]. destruct Hf as [_ Hf].
      destruct (IH C A a ls Hf) as [X Y]; [cbn in Hl; congruence|]. cbn. split; congruence. }
  rewrite m_copy_tag_eq; try assumption; try apply LA; try congruence;
    try (eapply rep_shape_ok; eassumption).
  rewrite <- !tag_range_box in *. apply m_copy_eq; auto.
  rewrite tag_range_length; congruence.
Qed.

Lemma sim_copy_tag_fl w aw own lk d s R r fl :
  rel w aw own lk -> legal aw (CopyTagFl d s R r fl) -> sim w aw (CopyTagFl d s R r fl).
Proof.
  intros HR (H1 & H2 & H3 & H4). unfold sim. cbn [step astep]. eapply sim_copy_core; eauto.
  intros k x y od os Hd Hs HN Hrd Hrs Hfit Hl. unfold tag_box in *.
  unfold exists_arr in H3. rewrite Hd in H3.
  pose proof (rep_class _ _ _ _ _ Hrd) as Cd. pose proof (rep_class _ _ _ _ _ Hrs) as Cs.
  rewrite <- (rep_size _ _ _ _ _ Hrd), <- (rep_size _ _ _ _ _ Hrs) in *.
  pose proof (m_size_length k od Cd) as Ld. pose proof (m_size_length k os Cs) as Ls.
  rewrite m_copy_tag_fl_eq; try assumption; try congruence; try (eapply rep_shape_ok; eassumption).
  rewrite <- !tag_range_box in *. apply m_copy_eq; auto.
  rewrite tag_range_length; congruence.
Qed.

End World.
