(** The ring of arrays. *)

From Coq Require Import ZArith List Bool Lia.
From Verif Require Import Base M_Flags M_Loop M_RS1 M_RS2 M_RS3 M_Heap M_PD1 M_PD2 M_PD3 M_World M_Client M_Examples M_Ring
  Spec Spec_Loop Spec_Array Spec_Hist Spec_Reach Spec_Mode Spec_Client Spec_Ring
  L_Base L_RS L_Range L_Loop L_Heap L_Lin L_Rep L_PD1 L_PD2 L_PD3 L_Kind L_Copy L_World L_Sim L_Access L_Copies L_Client L_Examples L_Link.
Import ListNotations.
Open Scope Z_scope.

Section Ring.
Context {V : Type}.
Variables (F : nat -> bool) (chk : bool) (g : Z) (ns : list Z).
Hypothesis Hg : 1 <= g.
Hypothesis Hns : Forall (fun n => g <= n /\ n + 2 * g <= 1073741824) ns.
Notation store := (@store V).
Implicit Types (f : store) (G : Z -> V).

Let shl := map (fun n => (K1 2 center, [(g, n, g)])) ns.
Let sh := shapes_of shl.
Let L := total ns.
Let m := length ns.

Lemma sh_at j n : nth_error ns j = Some n -> sh j = Some (K1 2 center, [(g, n, g)]).
Proof. intros E. unfold sh, shapes_of, shl. now rewrite nth_error_map, E. Qed.
Lemma n_ok j n : nth_error ns j = Some n -> g <= n /\ n + 2 * g <= 1073741824.
Proof. intros E. rewrite Forall_forall in Hns. apply Hns. eapply nth_error_In, E. Qed.
Lemma ur_ok j n c i : nth_error ns j = Some n -> 0 <= c < 2 -> - g <= i < n + g -> usable sh (ur j c i).
Proof.
  intros E H H'. exists (K1 2 center), [(g, n, g)]. split; [apply sh_at, E|]. cbn. unfold accepts. cbn. lia.
Qed.
Lemma look_ur f j c i : look f (ur j c i) = f j c [i].
Proof. unfold look. cbn [ur p_arr p_comp p_at p_fl]. now rewrite slot1. Qed.
Lemma fits_at j n : nth_error ns j = Some n -> dim_fits (g, n, g).
Proof. intros E. pose proof (n_ok j n E). unfold dim_fits. lia. Qed.

(** *** The two copies *)

Lemma copy_P f j j' n n' :
  nth_error ns j = Some n -> nth_error ns j' = Some n' ->
  ht F (at_st sh f) (call chk (CopyTagFl j j' [RP] [RIN] [BN])) (fun _ => at_st sh (carry f j j' [(n, n + g)] [n])).
Proof.
  intros E E'. pose proof (n_ok _ _ E) as H. pose proof (n_ok _ _ E') as H'.
  eapply ht_link; [|  |exact (sh_at _ _ E)|exact (sh_at _ _ E')|constructor; split; discriminate]; [|reflexivity].
  apply links_cons; [|apply links_nil]. apply link_P; lia.
Qed.

Lemma copy_N f j j' n n' :
  nth_error ns j = Some n -> nth_error ns j' = Some n' ->
  ht F (at_st sh f) (call chk (CopyTagFl j' j [RN] [RIN] [BP])) (fun _ => at_st sh (carry f j' j [(- g, 0)] [- n])).
Proof.
  intros E E'. pose proof (n_ok _ _ E) as H. pose proof (n_ok _ _ E') as H'.
  eapply ht_link; [|  |exact (sh_at _ _ E')|exact (sh_at _ _ E)|constructor; split; discriminate]; [|reflexivity].
  apply links_cons; [|apply links_nil]. apply link_N; lia.
Qed.

(** *** Points of the circle *)

Lemma total_app l1 l2 : total (l1 ++ l2) = total l1 + total l2.
Proof. unfold total. induction l1 as [|x l IH]; [reflexivity|]. cbn [app fold_right]. rewrite IH. ring. Qed.

Lemma total_nonneg l : Forall (fun n => 0 <= n) l -> 0 <= total l.
Proof. unfold total. induction 1; cbn [fold_right]; lia. Qed.

Lemma first_next j n : nth_error ns j = Some n -> first_point ns (S j) = first_point ns j + n.
Proof.
  intros E. unfold first_point. destruct (nth_error_split _ _ E) as (l1 & l2 & El & <-). rewrite El.
  replace (S (length l1)) with (length (l1 ++ [n])) by (rewrite app_length; cbn; lia).
  rewrite (firstn_app (length l1)), firstn_all, Nat.sub_diag. cbn [firstn]. rewrite app_nil_r.
  replace (l1 ++ n :: l2) with ((l1 ++ [n]) ++ l2) by now rewrite <- app_assoc.
  rewrite firstn_app, firstn_all, Nat.sub_diag. cbn [firstn]. rewrite app_nil_r, total_app. unfold total at 2. cbn. lia.
Qed.

Lemma first_range j n : nth_error ns j = Some n -> 0 <= first_point ns j /\ first_point ns j + n <= L.
Proof.
  intros E. assert (P : forall l, incl l ns -> 0 <= total l).
  { intros l Hl. apply total_nonneg, Forall_forall. intros x Hx. apply Hl in Hx. rewrite Forall_forall in Hns. specialize (Hns x Hx). cbn in Hns. lia. }
  unfold first_point, L. destruct (nth_error_split _ _ E) as (l1 & l2 & El & <-). rewrite El at 1 2 3.
  rewrite firstn_app, firstn_all, Nat.sub_diag. cbn [firstn]. rewrite app_nil_r, total_app. unfold total at 4. cbn [fold_right]. fold (total l2).
  split; [apply P|]. 2:{ enough (0 <= total l2) by lia. apply P. rewrite El. intros x Hx. apply in_or_app. right. now right. }
  rewrite El. intros x Hx. apply in_or_app. now left.
Qed.

Lemma right_ok j n : nth_error ns j = Some n ->
  exists n', nth_error ns (right_of m j) = Some n' /\
    (first_point ns (right_of m j) = first_point ns j + n \/ first_point ns (right_of m j) = first_point ns j + n - L).
Proof.
  intros E. assert (Hj : (j < m)%nat) by (apply nth_error_Some; now rewrite E).
  unfold right_of. destruct (Nat.eqb_spec (S j) m) as [Em|Nm].
  - destruct (nth_error ns 0) as [n'|] eqn:E0.
    2:{ apply nth_error_None in E0. unfold m in Hj. lia. }
    exists n'. split; [reflexivity|]. right. pose proof (first_next j n E) as X.
    assert (XL : first_point ns (S j) = L) by (unfold first_point, L; rewrite Em; unfold m; now rewrite firstn_all).
    unfold first_point at 1. cbn. lia.
  - destruct (nth_error ns (S j)) as [n'|] eqn:E1.
    2:{ apply nth_error_None in E1. unfold m in *. lia. }
    exists n'. split; [reflexivity|]. left. exact (first_next j n E).
Qed.

Lemma left_ok j : (j < m)%nat -> exists i, (i < m)%nat /\ right_of m i = j.
Proof.
  intros H. unfold right_of. destruct j as [|j].
  - exists (m - 1)%nat. split; [lia|]. destruct (Nat.eqb_spec (S (m - 1)) m); [reflexivity|lia].
  - exists j. split; [lia|]. destruct (Nat.eqb_spec (S j) m); [lia|reflexivity].
Qed.

Lemma mod_of a b : a = b \/ a = b - L \/ a = b + L -> 0 <= a < L -> b mod L = a.
Proof.
  intros H Ha. destruct H as [->|[->| ->]].
  - now apply Z.mod_small.
  - rewrite <- (Z.mod_small (b - L) L) by lia. replace (b - L) with (b + (-1) * L) by ring. now rewrite Z.mod_add by lia.
  - rewrite <- (Z.mod_small (b + L) L) by lia. replace (b + L) with (b + 1 * L) by ring. now rewrite Z.mod_add by lia.
Qed.

(** *** Joining the arrays *)

Definition holds c G f : Prop := forall j n i, nth_error ns j = Some n -> 0 <= i < n -> f j c [i] = Some (G (first_point ns j + i)).
Definition high G f j : Prop := forall n i, nth_error ns j = Some n -> n <= i < n + g -> f j 0 [i] = Some (G ((first_point ns j + i) mod L)).
Definition low G f j : Prop := forall i, - g <= i < 0 -> f j 0 [i] = Some (G ((first_point ns j + i) mod L)).

Lemma carry_in f d s b e z c i : b <= i < e -> carry f d s [(b, e)] [z] d c [i] = f s c [i - z].
Proof. intros H. unfold carry. rewrite Nat.eqb_refl, inb1 by assumption. reflexivity. Qed.
Lemma carry_out f d s b e z x c i : x <> d \/ i < b \/ e <= i -> carry f d s [(b, e)] [z] x c [i] = f x c [i].
Proof.
  intros H. unfold carry. destruct (Nat.eqb_spec x d) as [->|]; [|reflexivity]. rewrite outb1; [reflexivity|]. destruct H as [H|H]; [congruence|exact H].
Qed.

Lemma join_ok G f j (D : nat -> Prop) :
  (j < m)%nat -> holds 0 G f -> (forall x, D x -> high G f x /\ low G f (right_of m x)) ->
  ht F (at_st sh f) (join chk m j)
    (fun _ aw => exists f', at_st sh f' aw /\ holds 0 G f' /\ (forall x, D x \/ x = j -> high G f' x /\ low G f' (right_of m x))).
Proof.
  intros Hj HH HD. destruct (nth_error ns j) as [n|] eqn:E.
  2:{ apply nth_error_None in E. unfold m in Hj. lia. }
  destruct (right_ok j n E) as (n' & E' & Ho). set (j' := right_of m j) in *.
  pose proof (n_ok _ _ E) as Bn. pose proof (n_ok _ _ E') as Bn'.
  pose proof (first_range _ _ E) as R. pose proof (first_range _ _ E') as R'.
  unfold join. fold j'.
  eapply ht_bind; [apply (copy_P f j j' n n' E E')|]. intros y. cbn beta. clear y.
  eapply ht_bind; [apply (copy_N _ j j' n n' E E')|]. intros y. cbn beta. clear y. apply ht_ret. intros aw HP. eexists. split; [exact HP|].
  assert (N1 : forall x nx i, nth_error ns x = Some nx -> x <> j \/ i < n -> x <> j' \/ 0 <= i ->
    carry (carry f j j' [(n, n + g)] [n]) j' j [(- g, 0)] [- n] x 0 [i] = f x 0 [i]).
  { intros x nx i Ex H1 H2. rewrite carry_out by lia. rewrite carry_out by lia. reflexivity. }
  split; [|intros x Hx; split].
  - intros x nx i Ex Hi. assert (Hc : x <> j \/ i < n) by (destruct (Nat.eq_dec x j) as [->|]; [rewrite E in Ex; injection Ex as <-|]; lia).
    rewrite (N1 x nx i Ex Hc) by lia.
    now apply HH with (n := nx).
  - intros nx i Ex Hi. rewrite carry_out by (pose proof (n_ok _ _ Ex); lia).
    destruct (Nat.eq_dec x j) as [->|Nx].
    + rewrite E in Ex. injection Ex as <-. rewrite carry_in by lia. rewrite (HH j' n') by (try assumption; lia).
      do 2 f_equal. symmetry. apply mod_of; lia.
    + rewrite carry_out by (left; exact Nx). destruct Hx as [Hx| ->]; [|congruence]. exact (proj1 (HD x Hx) nx i Ex Hi).
  - intros i Hi. destruct (Nat.eq_dec (right_of m x) j') as [->|Nx].
    + rewrite carry_in by lia. rewrite carry_out by lia. rewrite (HH j n) by (try assumption; lia).
      do 2 f_equal. symmetry. apply mod_of; lia.
    + rewrite carry_out by (left; exact Nx).
      destruct Hx as [Hx| ->]; [|now contradiction Nx]. rewrite carry_out by lia. exact (proj2 (HD x Hx) i Hi).
Qed.

Lemma seq_split a k l1 q l2 : seq a k = l1 ++ q :: l2 -> (a <= q < a + k)%nat.
Proof. intros E. apply in_seq. rewrite E. apply in_or_app. right. now left. Qed.

Lemma joins_ok G f :
  holds 0 G f ->
  ht F (at_st sh f) (run (seq 0 m) (join chk m))
    (fun _ aw => exists f', at_st sh f' aw /\ holds 0 G f' /\ (forall x, (x < m)%nat -> high G f' x /\ low G f' x)).
Proof.
  intros HH. eapply ht_conseq.
  - apply (ht_run F (fun l aw => exists f', at_st sh f' aw /\ holds 0 G f' /\ (forall x, In x l -> high G f' x /\ low G f' (right_of m x))) (seq 0 m)).
    intros l1 q l2 E. apply ht_exists. intros f1. apply ht_pre. intros aw0 (HP & H1 & H2).
    pose proof (seq_split _ _ _ _ _ E) as Hq.
    eapply ht_conseq; [apply (join_ok G f1 q (fun x => In x l1)); [lia|assumption..]|intros aw ->; exact HP|].
    intros y0 aw (f2 & HP2 & H3 & H4). exists f2. split; [exact HP2|]. split; [exact H3|]. intros x Hx. apply H4.
    apply in_app_or in Hx. destruct Hx as [Hx|[<-|[]]]; auto.
  - intros aw HP. exists f. split; [exact HP|]. split; [exact HH|]. intros x [].
  - intros y0 aw (f2 & HP2 & H3 & H4). exists f2. split; [exact HP2|]. split; [exact H3|]. intros x Hx. split.
    + apply H4, in_seq. lia.
    + destruct (left_ok x Hx) as (y & Hy & <-). apply H4, in_seq. lia.
Qed.

(** *** Advancing *)

Lemma around_ok f j n i ds (w : Z -> V) :
  nth_error ns j = Some n -> 0 <= i < n -> Forall (fun d => - g <= d <= g) ds ->
  (forall q, - g <= q < n + g -> f j 0 [q] = Some (w q)) ->
  ht F (at_st sh f) (around chk j i ds) (fun x aw => x = map (fun d => w (i + d)) ds /\ at_st sh f aw).
Proof.
  intros E Hi Hd Hw. pose proof (n_ok _ _ E) as Bn. induction Hd as [|d ds Hd _ IH]; cbn [around map].
  - apply ht_ret. auto.
  - eapply ht_lift_let; [apply ck_ok; unfold in_int; lia|].
    eapply ht_let; [apply (ht_get_st F chk sh f (ur j 0 (i + d)) (w (i + d)))|].
    + apply (ur_ok j n); [exact E|lia..].
    + rewrite look_ur. apply Hw. lia.
    + eapply ht_let; [exact IH|]. apply ht_ret. auto.
Qed.

Lemma hold_over f ts j n c c' G :
  nth_error ns j = Some n -> holds c' G f -> c <> c' ->
  holds c' G (over f [(j, c, ts)] (in_boxb [(0, n)])).
Proof.
  intros E H Hc x nx i Ex Hi. rewrite over_skip; [now apply H with (n := nx)|]. cbn.
  destruct (Z.eqb_spec c' c); [congruence|]. now rewrite andb_false_r.
Qed.

(** The component [c] of the arrays in [l] is as in [G]. *)
Definition done c G f (l : list nat) : Prop :=
  forall j n i, In j l -> nth_error ns j = Some n -> 0 <= i < n -> f j c [i] = Some (G (first_point ns j + i)).

Lemma done_over f j n c (G : Z -> V) l :
  nth_error ns j = Some n -> done c G f l ->
  done c G (over f [(j, c, fun s => G (first_point ns j + nth 0 s 0))] (in_boxb [(0, n)])) (l ++ [j]).
Proof.
  intros E H x nx i Hx Ex Hi. destruct (Nat.eq_dec x j) as [->|Nx].
  - rewrite E in Ex. injection Ex as <-. erewrite over_hit; [|apply inb1; exact Hi|]. 2:{ cbn. rewrite Nat.eqb_refl, Z.eqb_refl. reflexivity. }
    reflexivity.
  - rewrite over_skip. 2:{ cbn. destruct (Nat.eqb_spec x j); [congruence|reflexivity]. }
    apply in_app_or in Hx. destruct Hx as [Hx|[->|[]]]; [|congruence]. now apply H with (n := nx).
Qed.

Variables (stc : list V -> V) (ds : list Z).
Hypothesis Hds : Forall (fun d => - g <= d <= g) ds.

Definition full G f : Prop := forall j n i, nth_error ns j = Some n -> - g <= i < n + g -> f j 0 [i] = Some (G ((first_point ns j + i) mod L)).

Lemma full_of G f : holds 0 G f -> (forall x, (x < m)%nat -> high G f x /\ low G f x) -> full G f.
Proof.
  intros H1 H2 j n i E Hi. assert (Hj : (j < m)%nat) by (apply nth_error_Some; now rewrite E).
  destruct (H2 j Hj) as [Hh Hl]. pose proof (first_range _ _ E) as R.
  destruct (Z.lt_ge_cases i 0); [apply Hl; lia|]. destruct (Z.lt_ge_cases i n); [|apply (Hh n); [exact E|lia]].
  rewrite Z.mod_small by lia. apply (H1 j n); [exact E|lia].
Qed.

Lemma advance_ok G f j l :
  (j < m)%nat -> full G f -> done 1 (circle_step L stc ds G) f l ->
  ht F (at_st sh f) (advance chk stc ds j)
    (fun _ aw => exists f', at_st sh f' aw /\ full G f' /\ done 1 (circle_step L stc ds G) f' (l ++ [j])).
Proof.
  intros Hj HF HD. destruct (nth_error ns j) as [n|] eqn:E.
  2:{ apply nth_error_None in E. unfold m in Hj. lia. }
  unfold advance. eapply ht_conseq.
  - apply (ht_over1 F chk sh f [(j, 1, fun s => circle_step L stc ds G (first_point ns j + nth 0 s 0))]) with (N := 2) (l := center) (n := g) (i := n) (p := g);
      [apply sh_at, E|apply (fits_at j n E)|].
    cbn [region fst snd]. intros i f' Hi Hag.
    eapply ht_let.
    + apply (around_ok f' j n i ds (fun q => G ((first_point ns j + q) mod L)) E Hi Hds).
      intros q Hq. rewrite Hag. { now apply HF with (n := n). } left. cbn. now rewrite andb_false_r.
    + apply (ht_set1 F chk sh f' (ur j 1 i)); [apply (ur_ok j n); [exact E|lia..]|apply slot1|].
      cbn [nth]. unfold circle_step. f_equal. apply map_ext. intros d. do 2 f_equal. ring.
  - auto.
  - intros y0 aw HP. eexists. split; [exact HP|]. cbn [region]. split.
    + intros x nx i Ex Hi. rewrite over_skip by (cbn; now rewrite andb_false_r). now apply HF with (n := nx).
    + now apply done_over.
Qed.

Lemma accept_ok G f j l :
  (j < m)%nat -> holds 1 G f -> done 0 G f l ->
  ht F (at_st sh f) (accept chk j) (fun _ aw => exists f', at_st sh f' aw /\ holds 1 G f' /\ done 0 G f' (l ++ [j])).
Proof.
  intros Hj HH HD. destruct (nth_error ns j) as [n|] eqn:E.
  2:{ apply nth_error_None in E. unfold m in Hj. lia. }
  unfold accept. eapply ht_conseq.
  - apply (ht_over1 F chk sh f [(j, 0, fun s => G (first_point ns j + nth 0 s 0))]) with (N := 2) (l := center) (n := g) (i := n) (p := g);
      [apply sh_at, E|apply (fits_at j n E)|].
    cbn [region fst snd]. intros i f' Hi Hag.
    eapply ht_let.
    + apply (ht_get_st F chk sh f' (ur j 1 i) (G (first_point ns j + i))); [apply (ur_ok j n); [exact E|lia..]|].
      rewrite look_ur, Hag. { now apply HH with (n := n). } left. cbn. now rewrite andb_false_r.
    + apply (ht_set1 F chk sh f' (ur j 0 i)); [apply (ur_ok j n); [exact E|lia..]|apply slot1|]. reflexivity.
  - auto.
  - intros y0 aw HP. eexists. split; [exact HP|]. cbn [region]. split.
    + apply hold_over; [exact E|exact HH|discriminate].
    + now apply done_over.
Qed.

Lemma done_all c G f : done c G f (seq 0 m) -> holds c G f.
Proof.
  intros H j n i E Hi. apply (H j n i); [|exact E|exact Hi]. apply in_seq. split; [lia|]. apply nth_error_Some. now rewrite E.
Qed.

Lemma pass_ok G f :
  holds 0 G f ->
  ht F (at_st sh f) (ring_pass chk m stc ds) (fun _ aw => exists f', at_st sh f' aw /\ holds 0 (circle_step L stc ds G) f').
Proof.
  intros HH. unfold ring_pass. eapply ht_bind; [apply (joins_ok G f HH)|]. intros [].
  apply ht_exists. intros f1. apply ht_pre. intros aw0 (HP & H1 & H2). pose proof (full_of G f1 H1 H2) as Hf.
  set (G' := circle_step L stc ds G).
  eapply ht_bind.
  { eapply ht_conseq; [|intros aw Haw; exact Haw|].
    - eapply ht_conseq with (P' := fun aw => exists f', at_st sh f' aw /\ full G f' /\ done 1 G' f' []).
      + apply (ht_run F (fun l aw => exists f', at_st sh f' aw /\ full G f' /\ done 1 G' f' l) (seq 0 m)).
        intros l1 q l2 E. pose proof (seq_split _ _ _ _ _ E) as Hq. apply ht_exists. intros f2. apply ht_pre. intros aw1 (HP1 & H3 & H4).
        eapply ht_conseq; [apply (advance_ok G f2 q l1); [lia|assumption..]|intros aw ->; exact HP1|auto].
      + intros aw ->. exists f1. split; [exact HP|]. split; [exact Hf|]. intros ? ? ? [].
      + intros x aw H. exact H.
    - intros x aw H. exact H. }
  intros []. apply ht_exists. intros f2. apply ht_pre. intros aw1 (HP1 & _ & H4). apply done_all in H4.
  eapply ht_conseq with (P' := fun aw => exists f', at_st sh f' aw /\ holds 1 G' f' /\ done 0 G' f' []).
  - apply (ht_run F (fun l aw => exists f', at_st sh f' aw /\ holds 1 G' f' /\ done 0 G' f' l) (seq 0 m)).
    intros l1 q l2 E. pose proof (seq_split _ _ _ _ _ E) as Hq. apply ht_exists. intros f3. apply ht_pre. intros aw2 (HP2 & H5 & H6).
    eapply ht_conseq; [apply (accept_ok G' f3 q l1); [lia|assumption..]|intros aw ->; exact HP2|auto].
  - intros aw ->. exists f2. split; [exact HP1|]. split; [exact H4|]. intros ? ? ? [].
  - intros y0 aw (f3 & HP3 & _ & H7). exists f3. split; [exact HP3|]. now apply done_all.
Qed.

(** *** Making and filling *)

Lemma make_ok :
  (forall t, (t < m)%nat -> F t = false) ->
  ht F (fun aw : aworld V => aw = a_start) (make_ring chk g ns) (fun _ => at_st sh (fun _ _ _ => None)).
Proof.
  intros HF. unfold make_ring. eapply ht_conseq.
  - apply (ht_run F (fun l => made (length l) (map (fun '(k, gs) => Some (k, ALive gs (blank_content (V := V))))
                                              (map (fun n => (K1 2 center, [(g, n, g)])) l))) ns).
    intros l1 n l2 E.
    assert (Bn : g <= n /\ n + 2 * g <= 1073741824).
    { rewrite Forall_forall in Hns. apply Hns. rewrite E. apply in_or_app. right. now left. }
    eapply ht_bind.
    + apply (ht_new1 F chk (length l1) _ 2 g n g); [lia|unfold shape_ok; lia|lia..|]. apply HF. unfold m. rewrite E, app_length. cbn. lia.
    + intros y. cbn beta. clear y. apply ht_ret. intros aw HP. rewrite app_length, !map_app. exact HP.
  - intros aw ->. split; reflexivity.
  - intros y0 aw HP. exact (made_at _ shl aw HP).
Qed.

Lemma places_split ns' : forall j o l1 a b l2, places j o ns' = l1 ++ (a, b) :: l2 ->
  exists k, a = (j + k)%nat /\ b = o + first_point ns' k /\ (k < length ns')%nat /\ map fst l1 = seq j k.
Proof.
  induction ns' as [|n ns' IH]; intros j o l1 a b l2 E; cbn [places] in E; [destruct l1; discriminate E|].
  destruct l1 as [|[a0 b0] l1].
  - injection E as <- <- _. exists O. unfold first_point. cbn. split; [lia|]. split; [lia|]. split; [lia|reflexivity].
  - cbn [app] in E. injection E as <- <- E. destruct (IH _ _ _ _ _ _ E) as (k & -> & -> & Hk & Hm). exists (S k).
    cbn [length map seq fst]. split; [lia|]. split; [|split; [lia|now rewrite Hm]]. unfold first_point. cbn [firstn]. unfold total. cbn [fold_right]. lia.
Qed.

Lemma places_fst ns' : forall j o, map fst (places j o ns') = seq j (length ns').
Proof. induction ns' as [|n ns' IH]; intros j o; [reflexivity|]. cbn [places map seq length fst]. now rewrite IH. Qed.

Lemma fill_ok ini f :
  ht F (at_st sh f) (fill_ring chk ns ini) (fun _ aw => exists f', at_st sh f' aw /\ holds 0 ini f').
Proof.
  unfold fill_ring.
  eapply ht_conseq with (P' := fun aw => exists f', at_st sh f' aw /\ done 0 ini f' (map fst (@nil (nat * Z)))).
  - apply (ht_run F (fun l aw => exists f', at_st sh f' aw /\ done 0 ini f' (map fst l)) (places 0 0 ns)).
    intros l1 [j o] l2 E. destruct (places_split ns _ _ _ _ _ _ E) as (k & Ej & -> & Hk & Hm). cbn in Ej. subst k.
    apply ht_exists. intros f1. apply ht_pre. intros aw1 (HP1 & H1).
    destruct (nth_error ns j) as [n|] eqn:En.
    2:{ apply nth_error_None in En. lia. }
    eapply ht_conseq.
    + apply (ht_over1 F chk sh f1 [(j, 0, fun s => ini (first_point ns j + nth 0 s 0))]) with (N := 2) (l := center) (n := g) (i := n) (p := g);
        [apply sh_at, En|apply (fits_at j n En)|].
      cbn [region fst snd]. intros i f' Hi Hag. pose proof (n_ok _ _ En).
      apply (ht_set1 F chk sh f' (ur j 0 i)); [apply (ur_ok j n); [exact En|lia..]|apply slot1|]. cbn [nth]. f_equal.
    + intros aw ->. exact HP1.
    + intros y0 aw HP. eexists. split; [exact HP|]. rewrite map_app. cbn [map fst region]. now apply done_over.
  - intros aw HP. exists f. split; [exact HP|]. intros ? ? ? [].
  - intros y0 aw (f' & HP & H). exists f'. split; [exact HP|]. rewrite places_fst in H. now apply done_all.
Qed.

Lemma ring_ok ini k :
  (forall t, (t < m)%nat -> F t = false) ->
  ht F (fun aw => aw = a_start) (ring chk g ns ini stc ds k)
    (fun _ aw => exists f, at_st sh f aw /\ holds 0 (circle L stc ds ini k) f).
Proof.
  intros HF. unfold ring. eapply ht_bind; [apply (make_ok HF)|]. intros []. eapply ht_bind; [apply (fill_ok ini)|]. intros [].
  apply (ht_passes F (fun j aw => exists f, at_st sh f aw /\ holds 0 (circle L stc ds ini j) f) k) with (j := O).
  intros j. apply ht_exists. intros f. apply ht_pre. intros aw0 [HP HH].
  eapply ht_conseq; [apply (pass_ok _ f HH)|intros aw ->; exact HP|]. auto.
Qed.

Lemma ring_final ini k :
  (forall t, (t < m)%nat -> F t = false) ->
  exists h w aw, ring chk g ns ini stc ds k (start F) = Ret w tt /\ after F h w aw /\ intact aw /\
    forall j n i, nth_error ns j = Some n -> 0 <= i < n -> cell w (ur j 0 i) (Some (circle L stc ds ini k (first_point ns j + i))).
Proof.
  intros HF. destruct (ring_ok ini k HF [] (start F) a_start (after_start F) eq_refl) as (h & w & aw & [] & E & [HA _] & f & HP & HH).
  exists h, w, aw. split; [exact E|]. split; [exact HA|]. split; [exact (proj1 HP)|]. intros j n i En Hi.
  rewrite <- (HH j n i En Hi), <- look_ur. eapply at_st_cell; [exact HA|exact HP|]. apply (ur_ok j n); [exact En|lia..].
Qed.

End Ring.
