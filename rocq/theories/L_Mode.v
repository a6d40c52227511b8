(** The same call in checked and in unchecked mode (C14).

    [rsim x y]: [x] is the result with checks, [y] the result without.  If [x]
    is an ordinary result then [y] is the same; if [x] is an exception then it
    comes from a check or [y] is the same exception.  Every function of the
    model that looks at the check switch is shown to respect this relation; the
    lemmas follow the text of the functions. *)

From Coq Require Import ZArith Lia List Bool String.
From Verif Require Import Base M_Flags M_Bytes M_TecZone M_TecFile M_Loop M_RS1 M_RS2 M_RS3 M_Heap M_PD0 M_PD1 M_PD2 M_PD3 Spec
  M_World M_Read Spec_Mode.
Import ListNotations.
Open Scope Z_scope.
Open Scope list_scope.

(** Only check exceptions. *)
Definition checks {A} (x : res A) : Prop :=
  match x with Err e => from_check e = true | _ => True end.

(** No check exceptions. *)
Definition calm {A} (x : res A) : Prop :=
  match x with Err e => from_check e = false | _ => True end.
Definition mcalm {S A} (x : M S A) : Prop :=
  forall s, match x s with Thr _ e => from_check e = false | _ => True end.

Lemma rsim_refl {A} (x : res A) : rsim x x.
Proof. destruct x; cbn; auto. Qed.

Lemma msim_refl {S A} (x : M S A) : msim x x.
Proof. intro s. destruct (x s); auto. Qed.

Lemma rsim_bind {A B} (x y : res A) (f g : A -> res B) :
  rsim x y -> (forall a, rsim (f a) (g a)) -> rsim (rbind x f) (rbind y g).
Proof.
  intros H1 H2. destruct x; cbn in *.
  - subst. apply H2.
  - destruct H1 as [?|?]; [tauto|subst; cbn; tauto].
  - exact I.
Qed.

Lemma rsim_checks (x : res unit) : checks x -> rsim x (Ok tt).
Proof. destruct x as [[]| |]; cbn; auto. Qed.

Lemma msim_bind {S A B} (x y : M S A) (f g : A -> M S B) :
  msim x y -> (forall a, msim (f a) (g a)) -> msim (bind x f) (bind y g).
Proof.
  intros H1 H2 s. unfold bind. specialize (H1 s). destruct (x s) as [s' a|s' e|].
  - rewrite H1. apply H2.
  - destruct H1 as [?|H1]; [tauto|rewrite H1; tauto].
  - exact I.
Qed.

Lemma msim_lift {S A} (x y : res A) : rsim x y -> msim (S := S) (lift x) (lift y).
Proof. intros H s. destruct x; cbn in *; subst; auto. destruct H; subst; auto. Qed.

Lemma msim_gets {V A} (f g : mem V -> res A) : (forall m, rsim (f m) (g m)) -> msim (gets f) (gets g).
Proof. intros H s. unfold gets. exact (msim_lift _ _ (H s) s). Qed.

Lemma msim_on_fst {S T A} (x y : M S A) : msim x y -> msim (on_fst (T := T) x) (on_fst y).
Proof.
  intros H [s t]. cbn. specialize (H s). destruct (x s).
  - rewrite H. reflexivity.
  - destruct H as [?|H]; [tauto|rewrite H; tauto].
  - exact I.
Qed.

Lemma msim_catch {S A} (x y h h' : M S A) :
  msim x y -> msim h h' -> msim (catch_bad_alloc x h) (catch_bad_alloc y h').
Proof.
  intros H1 H2 s. unfold catch_bad_alloc. specialize (H1 s). destruct (x s) as [s' a|s' e|].
  - rewrite H1. reflexivity.
  - destruct H1 as [H1|H1].
    + destruct e; cbn in H1; try discriminate; tauto.
    + rewrite H1. destruct e; auto; exact (H2 s').
  - exact I.
Qed.

Lemma msim_iter_int {S} (f g : Z -> M S unit) : (forall i, msim (f i) (g i)) ->
  forall k i, msim (iter_int k i f) (iter_int k i g).
Proof.
  intros H k. induction k as [|k IH]; intro i; cbn.
  - apply msim_refl.
  - apply msim_bind; auto.
Qed.

Lemma msim_iter_uint {S} (f g : Z -> M S unit) : (forall i, msim (f i) (g i)) ->
  forall k i, msim (iter_uint k i f) (iter_uint k i g).
Proof.
  intros H k. induction k as [|k IH]; intro i; cbn.
  - apply msim_refl.
  - apply msim_bind; auto.
Qed.

Lemma msim_for_int {S} b e (f g : Z -> M S unit) : (forall i, msim (f i) (g i)) ->
  msim (for_int b e f) (for_int b e g).
Proof.
  intro H. unfold for_int. destruct (b <=? e).
  - apply msim_iter_int; auto.
  - apply msim_bind; [apply msim_iter_int; auto|intro; apply msim_refl].
Qed.

Lemma msim_for_uint {S} b e (f g : Z -> M S unit) : (forall i, msim (f i) (g i)) ->
  msim (for_uint b e f) (for_uint b e g).
Proof. intro H. apply msim_iter_uint; auto. Qed.

Lemma msim_red_step {S T} (red : T -> T -> res T) (x y : M S T) :
  msim x y -> msim (red_step red x) (red_step red y).
Proof.
  intro H. unfold red_step. apply msim_bind; [apply msim_on_fst; exact H|intro; apply msim_refl].
Qed.

Lemma msim_red_frame {S T} (a : T) red (x y : M (S * T) unit) :
  msim x y -> msim (red_frame a red x) (red_frame a red y).
Proof.
  intros H s. unfold red_frame. specialize (H (s, a)). destruct (x (s, a)) as [[s' t] u|[s' t] e|].
  - rewrite H. destruct (lift (red t a) s'); auto.
  - destruct H as [?|H]; [tauto|rewrite H; tauto].
  - exact I.
Qed.

Lemma checks_bind {A B} (x : res A) (f : A -> res B) :
  checks x -> (forall a, checks (f a)) -> checks (rbind x f).
Proof. destruct x; cbn; auto. Qed.

Lemma calm_bind {A B} (x : res A) (f : A -> res B) :
  calm x -> (forall a, calm (f a)) -> calm (rbind x f).
Proof. destruct x; cbn; auto. Qed.

Lemma mcalm_bind {S A B} (x : M S A) (f : A -> M S B) :
  mcalm x -> (forall a, mcalm (f a)) -> mcalm (bind x f).
Proof.
  intros H1 H2 s. unfold bind. specialize (H1 s). destruct (x s); auto. apply H2.
Qed.

Lemma mcalm_lift {S A} (x : res A) : calm x -> mcalm (S := S) (lift x).
Proof. intros H s. destruct x; cbn in *; auto. Qed.

Lemma mcalm_gets {V A} (f : mem V -> res A) : (forall m, calm (f m)) -> mcalm (gets f).
Proof. intros H s. exact (mcalm_lift _ (H s) s). Qed.

Lemma mcalm_on_fst {S T A} (x : M S A) : mcalm x -> mcalm (on_fst (T := T) x).
Proof. intros H [s t]. cbn. specialize (H s). destruct (x s); auto. Qed.

Lemma mcalm_catch {S A} (x h : M S A) : mcalm x -> mcalm h -> mcalm (catch_bad_alloc x h).
Proof.
  intros H1 H2 s. unfold catch_bad_alloc. specialize (H1 s). destruct (x s) as [|s' e|]; auto.
  destruct e; auto; exact (H2 s').
Qed.

Lemma mcalm_iter_int {S} (f : Z -> M S unit) : (forall i, mcalm (f i)) ->
  forall k i, mcalm (iter_int k i f).
Proof.
  intros H k. induction k as [|k IH]; intro i; cbn; [exact (fun _ => I)|apply mcalm_bind; auto].
Qed.

Lemma mcalm_iter_uint {S} (f : Z -> M S unit) : (forall i, mcalm (f i)) ->
  forall k i, mcalm (iter_uint k i f).
Proof.
  intros H k. induction k as [|k IH]; intro i; cbn; [exact (fun _ => I)|apply mcalm_bind; auto].
Qed.

Lemma mcalm_for_int {S} b e (f : Z -> M S unit) : (forall i, mcalm (f i)) -> mcalm (for_int b e f).
Proof.
  intro H. unfold for_int. destruct (b <=? e).
  - apply mcalm_iter_int; auto.
  - apply mcalm_bind; [apply mcalm_iter_int; auto|intros ? ?; exact I].
Qed.

Lemma mcalm_for_uint {S} b e (f : Z -> M S unit) : (forall i, mcalm (f i)) -> mcalm (for_uint b e f).
Proof. intro H. apply mcalm_iter_uint; auto. Qed.

Create HintDb checks.
Create HintDb sim.
Create HintDb calm.

(** Follow the text of a computation. *)
Ltac checks_tac :=
  cbn beta iota;
  repeat (cbn beta iota; first
    [ apply checks_bind; [|intro]
    | solve [ auto with checks nocore ]
    | match goal with
      | |- checks (Ok _) => exact I
      | |- checks UB => exact I
      | |- checks (Err _) => reflexivity
      | |- checks (match ?x with _ => _ end) => destruct x
      end ]).

Ltac calm_tac :=
  cbn beta iota;
  repeat (cbn beta iota; first
    [ solve [ auto with calm nocore ]
    | apply calm_bind; [|intro]
    | apply mcalm_bind; [|intro]
    | apply mcalm_lift
    | apply mcalm_gets; intro
    | apply mcalm_on_fst
    | apply mcalm_catch
    | apply mcalm_for_int; intro
    | apply mcalm_for_uint; intro
    | match goal with
      | |- calm (Ok _) => exact I
      | |- calm UB => exact I
      | |- calm (Err _) => reflexivity
      | |- mcalm (ret _) => exact (fun _ => I)
      | |- mcalm undef => exact (fun _ => I)
      | |- mcalm (throw _) => exact (fun _ => eq_refl)
      | |- mcalm get_snd => exact (fun _ => I)
      | |- mcalm (upd_snd _) => exact (fun _ => I)
      | |- calm (match ?x with _ => _ end) => destruct x
      | |- mcalm (match ?x with _ => _ end) => destruct x
      end ]).

Ltac sim_tac :=
  cbn beta iota;
  repeat (cbn beta iota; first
    [ solve [ auto with sim nocore ]
    | apply rsim_bind; [|intro]
    | apply msim_bind; [|intro]
    | apply rsim_refl
    | apply msim_refl
    | apply rsim_checks; solve [ checks_tac ]
    | apply msim_lift
    | apply msim_gets; intro
    | apply msim_on_fst
    | apply msim_catch
    | apply msim_red_frame
    | apply msim_red_step
    | apply msim_for_int; intro
    | apply msim_for_uint; intro
    | match goal with
      | |- rsim (match ?x with _ => _ end) (match ?x with _ => _ end) => destruct x
      | |- msim (match ?x with _ => _ end) (match ?x with _ => _ end) => destruct x
      end ]).

(** ** Functions without the switch *)


Lemma ck_checks z : checks (ck z).
Proof. unfold ck. checks_tac. Qed.
Global Hint Resolve ck_checks : checks.

Lemma ck_calm z : calm (ck z).
Proof. unfold ck. calm_tac. Qed.
Global Hint Resolve ck_calm : calm.

Lemma iadd_checks a b : checks (iadd a b).
Proof. unfold iadd. checks_tac. Qed.
Global Hint Resolve iadd_checks : checks.

Lemma iadd_calm a b : calm (iadd a b).
Proof. unfold iadd. calm_tac. Qed.
Global Hint Resolve iadd_calm : calm.

Lemma isub_checks a b : checks (isub a b).
Proof. unfold isub. checks_tac. Qed.
Global Hint Resolve isub_checks : checks.

Lemma isub_calm a b : calm (isub a b).
Proof. unfold isub. calm_tac. Qed.
Global Hint Resolve isub_calm : calm.

Lemma imul_checks a b : checks (imul a b).
Proof. unfold imul. checks_tac. Qed.
Global Hint Resolve imul_checks : checks.

Lemma imul_calm a b : calm (imul a b).
Proof. unfold imul. calm_tac. Qed.
Global Hint Resolve imul_calm : calm.

Lemma ineg_checks a : checks (ineg a).
Proof. unfold ineg. checks_tac. Qed.
Global Hint Resolve ineg_checks : checks.

Lemma ineg_calm a : calm (ineg a).
Proof. unfold ineg. calm_tac. Qed.
Global Hint Resolve ineg_calm : calm.

Lemma sc_or_checks x y : checks x -> checks y -> checks (sc_or x y).
Proof. intros. unfold sc_or. apply checks_bind; [assumption|]. intros []; [exact I|assumption]. Qed.

Lemma sc_or_calm x y : calm x -> calm y -> calm (sc_or x y).
Proof. intros. unfold sc_or. apply calm_bind; [assumption|]. intros []; [exact I|assumption]. Qed.

Lemma sc_or_sim x x' y y' : rsim x x' -> rsim y y' -> rsim (sc_or x y) (sc_or x' y').
Proof. intros. unfold sc_or. apply rsim_bind; [assumption|]. intros []; [apply rsim_refl|assumption]. Qed.

Ltac checks_tac ::=
  cbn beta iota;
  repeat (cbn beta iota; first
    [ apply checks_bind; [|intro]
    | apply sc_or_checks
    | solve [ auto with checks nocore ]
    | match goal with
      | |- checks (Ok _) => exact I
      | |- checks UB => exact I
      | |- checks (Err _) => reflexivity
      | |- checks (match ?x with _ => _ end) => destruct x
      end ]).


(** ** Memory *)

Section Mem.
Context {V : Type}.


Lemma padd_calm (m : mem V) p k : calm (padd m p k).
Proof. unfold padd. calm_tac. Qed.
Lemma pidx_calm (m : mem V) p k : calm (pidx m p k).
Proof. unfold pidx. calm_tac. Qed.
Lemma load_calm (m : mem V) p : calm (load m p).
Proof. unfold load. calm_tac. Qed.
Lemma load_ptr_calm (m : mem V) p : calm (load_ptr m p).
Proof. unfold load_ptr. apply calm_bind; [apply load_calm|]. intro c. destruct c; exact I. Qed.
Lemma fetch_calm (m : mem V) p : calm (fetch m p).
Proof. unfold fetch. apply calm_bind; [apply load_calm|]. intro c. destruct c; exact I. Qed.
Lemma arr_get_calm {A} (l : list A) n : calm (arr_get l n).
Proof. unfold arr_get. calm_tac. Qed.
Lemma arr_set_calm {A} (l : list A) n x : calm (arr_set l n x).
Proof. unfold arr_set. calm_tac. Qed.
Lemma store_calm p (c : cell V) : mcalm (store p c).
Proof. intro m. unfold store. 
  repeat match goal with
         | |- context [match ?x with _ => _ end] =>
             lazymatch x with context [match _ with _ => _ end] => fail | _ => destruct x end
         end; exact I. Qed.
Lemma hnew_calm n : mcalm (hnew (V := V) n).
Proof. intro m. unfold hnew. destruct (fails m (tick m)); reflexivity || exact I. Qed.
Lemma hdelete_calm p : mcalm (hdelete (V := V) p).
Proof. intro m. unfold hdelete. 
  repeat match goal with
         | |- context [match ?x with _ => _ end] =>
             lazymatch x with context [match _ with _ => _ end] => fail | _ => destruct x end
         end; exact I. Qed.
Lemma put_calm (t : tok V) : mcalm (put t).
Proof. exact (fun _ => I). Qed.
Lemma put_cell_calm (c : res (cell V)) : calm c -> mcalm (put_cell c).
Proof.
  intro H. unfold put_cell. apply mcalm_bind; [apply mcalm_lift; exact H|].
  intro x. destruct x; exact (fun _ => I).
Qed.

Lemma in1_sim {A} (f g : M (mem V * pd1) A) : msim f g -> msim (in1 f) (in1 g).
Proof.
  intros H [m []]; cbn; auto. specialize (H (m, o)). destruct (f (m, o)) as [[? ?] ?|[? ?] ?|]; auto.
  - rewrite H. reflexivity.
  - destruct H as [?|H]; [tauto|rewrite H; tauto].
Qed.
Lemma in2_sim {A} (f g : M (mem V * pd2) A) : msim f g -> msim (in2 f) (in2 g).
Proof.
  intros H [m []]; cbn; auto. specialize (H (m, o)). destruct (f (m, o)) as [[? ?] ?|[? ?] ?|]; auto.
  - rewrite H. reflexivity.
  - destruct H as [?|H]; [tauto|rewrite H; tauto].
Qed.
Lemma in3_sim {A} (f g : M (mem V * pd3) A) : msim f g -> msim (in3 f) (in3 g).
Proof.
  intros H [m []]; cbn; auto. specialize (H (m, o)). destruct (f (m, o)) as [[? ?] ?|[? ?] ?|]; auto.
  - rewrite H. reflexivity.
  - destruct H as [?|H]; [tauto|rewrite H; tauto].
Qed.
Lemma in1_calm {A} (f : M (mem V * pd1) A) : mcalm f -> mcalm (in1 f).
Proof. intros H [m []]; cbn; auto. specialize (H (m, o)). destruct (f (m, o)) as [[? ?] ?|[? ?] ?|]; auto. Qed.
Lemma in2_calm {A} (f : M (mem V * pd2) A) : mcalm f -> mcalm (in2 f).
Proof. intros H [m []]; cbn; auto. specialize (H (m, o)). destruct (f (m, o)) as [[? ?] ?|[? ?] ?|]; auto. Qed.
Lemma in3_calm {A} (f : M (mem V * pd3) A) : mcalm f -> mcalm (in3 f).
Proof. intros H [m []]; cbn; auto. specialize (H (m, o)). destruct (f (m, o)) as [[? ?] ?|[? ?] ?|]; auto. Qed.

End Mem.
Global Hint Resolve padd_calm pidx_calm load_calm load_ptr_calm fetch_calm arr_get_calm arr_set_calm
  store_calm hnew_calm hdelete_calm put_calm put_cell_calm in1_calm in2_calm in3_calm sc_or_calm : calm.
Global Hint Resolve in1_sim in2_sim in3_sim sc_or_sim : sim.


Lemma check_d1_checks x0 : checks (check_d1 true x0).
Proof. unfold check_d1. checks_tac. Qed.
Global Hint Resolve check_d1_checks : checks.

Lemma check_d1_sim x0 : rsim (check_d1 true x0) (check_d1 false x0).
Proof. unfold check_d1. sim_tac. Qed.
Global Hint Resolve check_d1_sim : sim.

Lemma check_d1_calm x0 : calm (check_d1 false x0).
Proof. unfold check_d1. calm_tac. Qed.
Global Hint Resolve check_d1_calm : calm.

Lemma rbegin1_checks x0 x1 : checks (rbegin1 true x0 x1).
Proof. unfold rbegin1. checks_tac. Qed.
Global Hint Resolve rbegin1_checks : checks.

Lemma rbegin1_sim x0 x1 : rsim (rbegin1 true x0 x1) (rbegin1 false x0 x1).
Proof. unfold rbegin1. sim_tac. Qed.
Global Hint Resolve rbegin1_sim : sim.

Lemma rbegin1_calm x0 x1 : calm (rbegin1 false x0 x1).
Proof. unfold rbegin1. calm_tac. Qed.
Global Hint Resolve rbegin1_calm : calm.

Lemma rsize1_checks x0 x1 : checks (rsize1 true x0 x1).
Proof. unfold rsize1. checks_tac. Qed.
Global Hint Resolve rsize1_checks : checks.

Lemma rsize1_sim x0 x1 : rsim (rsize1 true x0 x1) (rsize1 false x0 x1).
Proof. unfold rsize1. sim_tac. Qed.
Global Hint Resolve rsize1_sim : sim.

Lemma rsize1_calm x0 x1 : calm (rsize1 false x0 x1).
Proof. unfold rsize1. calm_tac. Qed.
Global Hint Resolve rsize1_calm : calm.

Lemma rend1_checks x0 x1 : checks (rend1 true x0 x1).
Proof. unfold rend1. checks_tac. Qed.
Global Hint Resolve rend1_checks : checks.

Lemma rend1_sim x0 x1 : rsim (rend1 true x0 x1) (rend1 false x0 x1).
Proof. unfold rend1. sim_tac. Qed.
Global Hint Resolve rend1_sim : sim.

Lemma rend1_calm x0 x1 : calm (rend1 false x0 x1).
Proof. unfold rend1. calm_tac. Qed.
Global Hint Resolve rend1_calm : calm.

Lemma rlast1_checks x0 x1 : checks (rlast1 true x0 x1).
Proof. unfold rlast1. checks_tac. Qed.
Global Hint Resolve rlast1_checks : checks.

Lemma rlast1_sim x0 x1 : rsim (rlast1 true x0 x1) (rlast1 false x0 x1).
Proof. unfold rlast1. sim_tac. Qed.
Global Hint Resolve rlast1_sim : sim.

Lemma rlast1_calm x0 x1 : calm (rlast1 false x0 x1).
Proof. unfold rlast1. calm_tac. Qed.
Global Hint Resolve rlast1_calm : calm.

Lemma rbound1_checks x0 x1 x2 : checks (rbound1 true x0 x1 x2).
Proof. unfold rbound1. checks_tac. Qed.
Global Hint Resolve rbound1_checks : checks.

Lemma rbound1_sim x0 x1 x2 : rsim (rbound1 true x0 x1 x2) (rbound1 false x0 x1 x2).
Proof. unfold rbound1. sim_tac. Qed.
Global Hint Resolve rbound1_sim : sim.

Lemma rbound1_calm x0 x1 x2 : calm (rbound1 false x0 x1 x2).
Proof. unfold rbound1. calm_tac. Qed.
Global Hint Resolve rbound1_calm : calm.

Lemma cut_head1_checks x0 x1 : checks (cut_head1 x0 x1).
Proof. unfold cut_head1. checks_tac. Qed.
Global Hint Resolve cut_head1_checks : checks.

Lemma cut_head1_calm x0 x1 : calm (cut_head1 x0 x1).
Proof. unfold cut_head1. calm_tac. Qed.
Global Hint Resolve cut_head1_calm : calm.

Lemma cut_tail1_checks x0 x1 : checks (cut_tail1 x0 x1).
Proof. unfold cut_tail1. checks_tac. Qed.
Global Hint Resolve cut_tail1_checks : checks.

Lemma cut_tail1_calm x0 x1 : calm (cut_tail1 x0 x1).
Proof. unfold cut_tail1. calm_tac. Qed.
Global Hint Resolve cut_tail1_calm : calm.

Lemma tran1_checks x0 x1 : checks (tran1 x0 x1).
Proof. unfold tran1. checks_tac. Qed.
Global Hint Resolve tran1_checks : checks.

Lemma tran1_calm x0 x1 : calm (tran1 x0 x1).
Proof. unfold tran1. calm_tac. Qed.
Global Hint Resolve tran1_calm : calm.

Lemma is_overlap1_checks x0 x1 : checks (is_overlap1 true x0 x1).
Proof. unfold is_overlap1. checks_tac. Qed.
Global Hint Resolve is_overlap1_checks : checks.

Lemma is_overlap1_sim x0 x1 : rsim (is_overlap1 true x0 x1) (is_overlap1 false x0 x1).
Proof. unfold is_overlap1. sim_tac. Qed.
Global Hint Resolve is_overlap1_sim : sim.

Lemma is_overlap1_calm x0 x1 : calm (is_overlap1 false x0 x1).
Proof. unfold is_overlap1. calm_tac. Qed.
Global Hint Resolve is_overlap1_calm : calm.

Lemma overlap1_sim x0 x1 : rsim (overlap1 true x0 x1) (overlap1 false x0 x1).
Proof. unfold overlap1. sim_tac. Qed.
Global Hint Resolve overlap1_sim : sim.

Lemma overlap1_calm x0 x1 : calm (overlap1 false x0 x1).
Proof. unfold overlap1. calm_tac. Qed.
Global Hint Resolve overlap1_calm : calm.

Lemma check_range1_sim x0 x1 x2 x3 x4 : rsim (check_range1 true x0 x1 x2 x3 x4) (check_range1 false x0 x1 x2 x3 x4).
Proof. unfold check_range1. sim_tac. Qed.
Global Hint Resolve check_range1_sim : sim.

Lemma check_range1_calm x0 x1 x2 x3 x4 : calm (check_range1 false x0 x1 x2 x3 x4).
Proof. unfold check_range1. calm_tac. Qed.
Global Hint Resolve check_range1_calm : calm.

Lemma check_range1_c_sim x0 x1 x2 : rsim (check_range1_c true x0 x1 x2) (check_range1_c false x0 x1 x2).
Proof. unfold check_range1_c. sim_tac. Qed.
Global Hint Resolve check_range1_c_sim : sim.

Lemma check_range1_c_calm x0 x1 x2 : calm (check_range1_c false x0 x1 x2).
Proof. unfold check_range1_c. calm_tac. Qed.
Global Hint Resolve check_range1_c_calm : calm.

Lemma PD_For_1D_sim {S} x0 f g : (forall i0, msim (f i0) (g i0)) ->
  msim (@PD_For_1D S true x0 f) (@PD_For_1D S false x0 g).
Proof. intro H. unfold PD_For_1D. sim_tac. Qed.
Global Hint Resolve PD_For_1D_sim : sim.

Lemma PD_For_N_1D_sim {S} x0 x1 x2 f g : (forall i0 i1, msim (f i0 i1) (g i0 i1)) ->
  msim (@PD_For_N_1D S true x0 x1 x2 f) (@PD_For_N_1D S false x0 x1 x2 g).
Proof. intro H. unfold PD_For_N_1D. sim_tac. Qed.
Global Hint Resolve PD_For_N_1D_sim : sim.

Lemma PD_Reduce_1D_sim {S} {T} x0 x1 x2 f g : (forall i0, msim (f i0) (g i0)) ->
  msim (@PD_Reduce_1D S T true x0 x1 x2 f) (@PD_Reduce_1D S T false x0 x1 x2 g).
Proof. intro H. unfold PD_Reduce_1D. sim_tac. Qed.
Global Hint Resolve PD_Reduce_1D_sim : sim.

Lemma PD_Reduce_N_1D_sim {S} {T} x0 x1 x2 x3 x4 f g : (forall i0 i1, msim (f i0 i1) (g i0 i1)) ->
  msim (@PD_Reduce_N_1D S T true x0 x1 x2 x3 x4 f) (@PD_Reduce_N_1D S T false x0 x1 x2 x3 x4 g).
Proof. intro H. unfold PD_Reduce_N_1D. sim_tac. Qed.
Global Hint Resolve PD_Reduce_N_1D_sim : sim.

Lemma sin1_sim x0 x1 : rsim (sin1 true x0 x1) (sin1 false x0 x1).
Proof. unfold sin1. sim_tac. Qed.
Global Hint Resolve sin1_sim : sim.

Lemma sin1_calm x0 x1 : calm (sin1 false x0 x1).
Proof. unfold sin1. calm_tac. Qed.
Global Hint Resolve sin1_calm : calm.

Lemma sn1_sim x0 x1 : rsim (sn1 true x0 x1) (sn1 false x0 x1).
Proof. unfold sn1. sim_tac. Qed.
Global Hint Resolve sn1_sim : sim.

Lemma sn1_calm x0 x1 : calm (sn1 false x0 x1).
Proof. unfold sn1. calm_tac. Qed.
Global Hint Resolve sn1_calm : calm.

Lemma sp1_sim x0 x1 : rsim (sp1 true x0 x1) (sp1 false x0 x1).
Proof. unfold sp1. sim_tac. Qed.
Global Hint Resolve sp1_sim : sim.

Lemma sp1_calm x0 x1 : calm (sp1 false x0 x1).
Proof. unfold sp1. calm_tac. Qed.
Global Hint Resolve sp1_calm : calm.

Lemma sbegin1_sim x0 x1 x2 : rsim (sbegin1 true x0 x1 x2) (sbegin1 false x0 x1 x2).
Proof. unfold sbegin1. sim_tac. Qed.
Global Hint Resolve sbegin1_sim : sim.

Lemma sbegin1_calm x0 x1 x2 : calm (sbegin1 false x0 x1 x2).
Proof. unfold sbegin1. calm_tac. Qed.
Global Hint Resolve sbegin1_calm : calm.

Lemma send1_sim x0 x1 x2 : rsim (send1 true x0 x1 x2) (send1 false x0 x1 x2).
Proof. unfold send1. sim_tac. Qed.
Global Hint Resolve send1_sim : sim.

Lemma send1_calm x0 x1 x2 : calm (send1 false x0 x1 x2).
Proof. unfold send1. calm_tac. Qed.
Global Hint Resolve send1_calm : calm.

Lemma ssize1_sim x0 x1 x2 : rsim (ssize1 true x0 x1 x2) (ssize1 false x0 x1 x2).
Proof. unfold ssize1. sim_tac. Qed.
Global Hint Resolve ssize1_sim : sim.

Lemma ssize1_calm x0 x1 x2 : calm (ssize1 false x0 x1 x2).
Proof. unfold ssize1. calm_tac. Qed.
Global Hint Resolve ssize1_calm : calm.

Lemma slast1_sim x0 x1 x2 : rsim (slast1 true x0 x1 x2) (slast1 false x0 x1 x2).
Proof. unfold slast1. sim_tac. Qed.
Global Hint Resolve slast1_sim : sim.

Lemma slast1_calm x0 x1 x2 : calm (slast1 false x0 x1 x2).
Proof. unfold slast1. calm_tac. Qed.
Global Hint Resolve slast1_calm : calm.

Lemma sbound1_sim x0 x1 x2 x3 : rsim (sbound1 true x0 x1 x2 x3) (sbound1 false x0 x1 x2 x3).
Proof. unfold sbound1. sim_tac. Qed.
Global Hint Resolve sbound1_sim : sim.

Lemma sbound1_calm x0 x1 x2 x3 : calm (sbound1 false x0 x1 x2 x3).
Proof. unfold sbound1. calm_tac. Qed.
Global Hint Resolve sbound1_calm : calm.

Lemma mirror1_sim x0 x1 x2 x3 : rsim (mirror1 true x0 x1 x2 x3) (mirror1 false x0 x1 x2 x3).
Proof. unfold mirror1. sim_tac. Qed.
Global Hint Resolve mirror1_sim : sim.

Lemma mirror1_calm x0 x1 x2 x3 : calm (mirror1 false x0 x1 x2 x3).
Proof. unfold mirror1. calm_tac. Qed.
Global Hint Resolve mirror1_calm : calm.

Lemma periodic1_sim x0 x1 x2 x3 : rsim (periodic1 true x0 x1 x2 x3) (periodic1 false x0 x1 x2 x3).
Proof. unfold periodic1. sim_tac. Qed.
Global Hint Resolve periodic1_sim : sim.

Lemma periodic1_calm x0 x1 x2 x3 : calm (periodic1 false x0 x1 x2 x3).
Proof. unfold periodic1. calm_tac. Qed.
Global Hint Resolve periodic1_calm : calm.

Lemma srange1_sim x0 x1 : rsim (srange1 true x0 x1) (srange1 false x0 x1).
Proof. unfold srange1. sim_tac. Qed.
Global Hint Resolve srange1_sim : sim.

Lemma srange1_calm x0 x1 : calm (srange1 false x0 x1).
Proof. unfold srange1. calm_tac. Qed.
Global Hint Resolve srange1_calm : calm.

Lemma scheck1_calm x0 : calm (scheck1 x0).
Proof. unfold scheck1. calm_tac. Qed.
Global Hint Resolve scheck1_calm : calm.

Lemma check_d2_checks x0 : checks (check_d2 true x0).
Proof. unfold check_d2. checks_tac. Qed.
Global Hint Resolve check_d2_checks : checks.

Lemma check_d2_sim x0 : rsim (check_d2 true x0) (check_d2 false x0).
Proof. unfold check_d2. sim_tac. Qed.
Global Hint Resolve check_d2_sim : sim.

Lemma check_d2_calm x0 : calm (check_d2 false x0).
Proof. unfold check_d2. calm_tac. Qed.
Global Hint Resolve check_d2_calm : calm.

Lemma idx2_checks x0 x1 : checks (idx2 x0 x1).
Proof. unfold idx2. checks_tac. Qed.
Global Hint Resolve idx2_checks : checks.

Lemma idx2_calm x0 x1 : calm (idx2 x0 x1).
Proof. unfold idx2. calm_tac. Qed.
Global Hint Resolve idx2_calm : calm.

Lemma rbegin2_checks x0 x1 : checks (rbegin2 true x0 x1).
Proof. unfold rbegin2. checks_tac. Qed.
Global Hint Resolve rbegin2_checks : checks.

Lemma rbegin2_sim x0 x1 : rsim (rbegin2 true x0 x1) (rbegin2 false x0 x1).
Proof. unfold rbegin2. sim_tac. Qed.
Global Hint Resolve rbegin2_sim : sim.

Lemma rbegin2_calm x0 x1 : calm (rbegin2 false x0 x1).
Proof. unfold rbegin2. calm_tac. Qed.
Global Hint Resolve rbegin2_calm : calm.

Lemma rsize2_checks x0 x1 : checks (rsize2 true x0 x1).
Proof. unfold rsize2. checks_tac. Qed.
Global Hint Resolve rsize2_checks : checks.

Lemma rsize2_sim x0 x1 : rsim (rsize2 true x0 x1) (rsize2 false x0 x1).
Proof. unfold rsize2. sim_tac. Qed.
Global Hint Resolve rsize2_sim : sim.

Lemma rsize2_calm x0 x1 : calm (rsize2 false x0 x1).
Proof. unfold rsize2. calm_tac. Qed.
Global Hint Resolve rsize2_calm : calm.

Lemma rend2_checks x0 x1 : checks (rend2 true x0 x1).
Proof. unfold rend2. checks_tac. Qed.
Global Hint Resolve rend2_checks : checks.

Lemma rend2_sim x0 x1 : rsim (rend2 true x0 x1) (rend2 false x0 x1).
Proof. unfold rend2. sim_tac. Qed.
Global Hint Resolve rend2_sim : sim.

Lemma rend2_calm x0 x1 : calm (rend2 false x0 x1).
Proof. unfold rend2. calm_tac. Qed.
Global Hint Resolve rend2_calm : calm.

Lemma rlast2_checks x0 x1 : checks (rlast2 true x0 x1).
Proof. unfold rlast2. checks_tac. Qed.
Global Hint Resolve rlast2_checks : checks.

Lemma rlast2_sim x0 x1 : rsim (rlast2 true x0 x1) (rlast2 false x0 x1).
Proof. unfold rlast2. sim_tac. Qed.
Global Hint Resolve rlast2_sim : sim.

Lemma rlast2_calm x0 x1 : calm (rlast2 false x0 x1).
Proof. unfold rlast2. calm_tac. Qed.
Global Hint Resolve rlast2_calm : calm.

Lemma rbound2_checks x0 x1 x2 : checks (rbound2 true x0 x1 x2).
Proof. unfold rbound2. checks_tac. Qed.
Global Hint Resolve rbound2_checks : checks.

Lemma rbound2_sim x0 x1 x2 : rsim (rbound2 true x0 x1 x2) (rbound2 false x0 x1 x2).
Proof. unfold rbound2. sim_tac. Qed.
Global Hint Resolve rbound2_sim : sim.

Lemma rbound2_calm x0 x1 x2 : calm (rbound2 false x0 x1 x2).
Proof. unfold rbound2. calm_tac. Qed.
Global Hint Resolve rbound2_calm : calm.

Lemma cut_head2_checks x0 x1 x2 : checks (cut_head2 x0 x1 x2).
Proof. unfold cut_head2. checks_tac. Qed.
Global Hint Resolve cut_head2_checks : checks.

Lemma cut_head2_calm x0 x1 x2 : calm (cut_head2 x0 x1 x2).
Proof. unfold cut_head2. calm_tac. Qed.
Global Hint Resolve cut_head2_calm : calm.

Lemma cut_tail2_checks x0 x1 x2 : checks (cut_tail2 x0 x1 x2).
Proof. unfold cut_tail2. checks_tac. Qed.
Global Hint Resolve cut_tail2_checks : checks.

Lemma cut_tail2_calm x0 x1 x2 : calm (cut_tail2 x0 x1 x2).
Proof. unfold cut_tail2. calm_tac. Qed.
Global Hint Resolve cut_tail2_calm : calm.

Lemma tran2_checks x0 x1 x2 : checks (tran2 x0 x1 x2).
Proof. unfold tran2. checks_tac. Qed.
Global Hint Resolve tran2_checks : checks.

Lemma tran2_calm x0 x1 x2 : calm (tran2 x0 x1 x2).
Proof. unfold tran2. calm_tac. Qed.
Global Hint Resolve tran2_calm : calm.

Lemma is_overlap2_checks x0 x1 : checks (is_overlap2 true x0 x1).
Proof. unfold is_overlap2. checks_tac. Qed.
Global Hint Resolve is_overlap2_checks : checks.

Lemma is_overlap2_sim x0 x1 : rsim (is_overlap2 true x0 x1) (is_overlap2 false x0 x1).
Proof. unfold is_overlap2. sim_tac. Qed.
Global Hint Resolve is_overlap2_sim : sim.

Lemma is_overlap2_calm x0 x1 : calm (is_overlap2 false x0 x1).
Proof. unfold is_overlap2. calm_tac. Qed.
Global Hint Resolve is_overlap2_calm : calm.

Lemma overlap2_sim x0 x1 : rsim (overlap2 true x0 x1) (overlap2 false x0 x1).
Proof. unfold overlap2. sim_tac. Qed.
Global Hint Resolve overlap2_sim : sim.

Lemma overlap2_calm x0 x1 : calm (overlap2 false x0 x1).
Proof. unfold overlap2. calm_tac. Qed.
Global Hint Resolve overlap2_calm : calm.

Lemma check_range2_sim x0 x1 x2 x3 x4 : rsim (check_range2 true x0 x1 x2 x3 x4) (check_range2 false x0 x1 x2 x3 x4).
Proof. unfold check_range2. sim_tac. Qed.
Global Hint Resolve check_range2_sim : sim.

Lemma check_range2_calm x0 x1 x2 x3 x4 : calm (check_range2 false x0 x1 x2 x3 x4).
Proof. unfold check_range2. calm_tac. Qed.
Global Hint Resolve check_range2_calm : calm.

Lemma check_range2_c_sim x0 x1 x2 : rsim (check_range2_c true x0 x1 x2) (check_range2_c false x0 x1 x2).
Proof. unfold check_range2_c. sim_tac. Qed.
Global Hint Resolve check_range2_c_sim : sim.

Lemma check_range2_c_calm x0 x1 x2 : calm (check_range2_c false x0 x1 x2).
Proof. unfold check_range2_c. calm_tac. Qed.
Global Hint Resolve check_range2_c_calm : calm.

Lemma PD_For_2D_sim {S} x0 f g : (forall i0 i1, msim (f i0 i1) (g i0 i1)) ->
  msim (@PD_For_2D S true x0 f) (@PD_For_2D S false x0 g).
Proof. intro H. unfold PD_For_2D. sim_tac. Qed.
Global Hint Resolve PD_For_2D_sim : sim.

Lemma PD_For_N_2D_sim {S} x0 x1 x2 f g : (forall i0 i1 i2, msim (f i0 i1 i2) (g i0 i1 i2)) ->
  msim (@PD_For_N_2D S true x0 x1 x2 f) (@PD_For_N_2D S false x0 x1 x2 g).
Proof. intro H. unfold PD_For_N_2D. sim_tac. Qed.
Global Hint Resolve PD_For_N_2D_sim : sim.

Lemma PD_Reduce_2D_sim {S} {T} x0 x1 x2 f g : (forall i0 i1, msim (f i0 i1) (g i0 i1)) ->
  msim (@PD_Reduce_2D S T true x0 x1 x2 f) (@PD_Reduce_2D S T false x0 x1 x2 g).
Proof. intro H. unfold PD_Reduce_2D. sim_tac. Qed.
Global Hint Resolve PD_Reduce_2D_sim : sim.

Lemma PD_Reduce_N_2D_sim {S} {T} x0 x1 x2 x3 x4 f g : (forall i0 i1 i2, msim (f i0 i1 i2) (g i0 i1 i2)) ->
  msim (@PD_Reduce_N_2D S T true x0 x1 x2 x3 x4 f) (@PD_Reduce_N_2D S T false x0 x1 x2 x3 x4 g).
Proof. intro H. unfold PD_Reduce_N_2D. sim_tac. Qed.
Global Hint Resolve PD_Reduce_N_2D_sim : sim.

Lemma PD_For_1D_2_sim {S} x0 x1 f g : (forall i0, msim (f i0) (g i0)) ->
  msim (@PD_For_1D_2 S true x0 x1 f) (@PD_For_1D_2 S false x0 x1 g).
Proof. intro H. unfold PD_For_1D_2. sim_tac. Qed.
Global Hint Resolve PD_For_1D_2_sim : sim.

Lemma PD_For_N_1D_2_sim {S} x0 x1 x2 x3 f g : (forall i0 i1, msim (f i0 i1) (g i0 i1)) ->
  msim (@PD_For_N_1D_2 S true x0 x1 x2 x3 f) (@PD_For_N_1D_2 S false x0 x1 x2 x3 g).
Proof. intro H. unfold PD_For_N_1D_2. sim_tac. Qed.
Global Hint Resolve PD_For_N_1D_2_sim : sim.

Lemma PD_Reduce_1D_2_sim {S} {T} x0 x1 x2 x3 f g : (forall i0, msim (f i0) (g i0)) ->
  msim (@PD_Reduce_1D_2 S T true x0 x1 x2 x3 f) (@PD_Reduce_1D_2 S T false x0 x1 x2 x3 g).
Proof. intro H. unfold PD_Reduce_1D_2. sim_tac. Qed.
Global Hint Resolve PD_Reduce_1D_2_sim : sim.

Lemma PD_Reduce_N_1D_2_sim {S} {T} x0 x1 x2 x3 x4 x5 f g : (forall i0 i1, msim (f i0 i1) (g i0 i1)) ->
  msim (@PD_Reduce_N_1D_2 S T true x0 x1 x2 x3 x4 x5 f) (@PD_Reduce_N_1D_2 S T false x0 x1 x2 x3 x4 x5 g).
Proof. intro H. unfold PD_Reduce_N_1D_2. sim_tac. Qed.
Global Hint Resolve PD_Reduce_N_1D_2_sim : sim.

Lemma sin2_sim x0 x1 : rsim (sin2 true x0 x1) (sin2 false x0 x1).
Proof. unfold sin2. sim_tac. Qed.
Global Hint Resolve sin2_sim : sim.

Lemma sin2_calm x0 x1 : calm (sin2 false x0 x1).
Proof. unfold sin2. calm_tac. Qed.
Global Hint Resolve sin2_calm : calm.

Lemma sn2_sim x0 x1 : rsim (sn2 true x0 x1) (sn2 false x0 x1).
Proof. unfold sn2. sim_tac. Qed.
Global Hint Resolve sn2_sim : sim.

Lemma sn2_calm x0 x1 : calm (sn2 false x0 x1).
Proof. unfold sn2. calm_tac. Qed.
Global Hint Resolve sn2_calm : calm.

Lemma sp2_sim x0 x1 : rsim (sp2 true x0 x1) (sp2 false x0 x1).
Proof. unfold sp2. sim_tac. Qed.
Global Hint Resolve sp2_sim : sim.

Lemma sp2_calm x0 x1 : calm (sp2 false x0 x1).
Proof. unfold sp2. calm_tac. Qed.
Global Hint Resolve sp2_calm : calm.

Lemma sbegin2_sim x0 x1 x2 : rsim (sbegin2 true x0 x1 x2) (sbegin2 false x0 x1 x2).
Proof. unfold sbegin2. sim_tac. Qed.
Global Hint Resolve sbegin2_sim : sim.

Lemma sbegin2_calm x0 x1 x2 : calm (sbegin2 false x0 x1 x2).
Proof. unfold sbegin2. calm_tac. Qed.
Global Hint Resolve sbegin2_calm : calm.

Lemma send2_sim x0 x1 x2 : rsim (send2 true x0 x1 x2) (send2 false x0 x1 x2).
Proof. unfold send2. sim_tac. Qed.
Global Hint Resolve send2_sim : sim.

Lemma send2_calm x0 x1 x2 : calm (send2 false x0 x1 x2).
Proof. unfold send2. calm_tac. Qed.
Global Hint Resolve send2_calm : calm.

Lemma ssize2_sim x0 x1 x2 : rsim (ssize2 true x0 x1 x2) (ssize2 false x0 x1 x2).
Proof. unfold ssize2. sim_tac. Qed.
Global Hint Resolve ssize2_sim : sim.

Lemma ssize2_calm x0 x1 x2 : calm (ssize2 false x0 x1 x2).
Proof. unfold ssize2. calm_tac. Qed.
Global Hint Resolve ssize2_calm : calm.

Lemma slast2_sim x0 x1 x2 : rsim (slast2 true x0 x1 x2) (slast2 false x0 x1 x2).
Proof. unfold slast2. sim_tac. Qed.
Global Hint Resolve slast2_sim : sim.

Lemma slast2_calm x0 x1 x2 : calm (slast2 false x0 x1 x2).
Proof. unfold slast2. calm_tac. Qed.
Global Hint Resolve slast2_calm : calm.

Lemma sbound2_sim x0 x1 x2 x3 : rsim (sbound2 true x0 x1 x2 x3) (sbound2 false x0 x1 x2 x3).
Proof. unfold sbound2. sim_tac. Qed.
Global Hint Resolve sbound2_sim : sim.

Lemma sbound2_calm x0 x1 x2 x3 : calm (sbound2 false x0 x1 x2 x3).
Proof. unfold sbound2. calm_tac. Qed.
Global Hint Resolve sbound2_calm : calm.

Lemma mirror2_sim x0 x1 x2 x3 : rsim (mirror2 true x0 x1 x2 x3) (mirror2 false x0 x1 x2 x3).
Proof. unfold mirror2. sim_tac. Qed.
Global Hint Resolve mirror2_sim : sim.

Lemma mirror2_calm x0 x1 x2 x3 : calm (mirror2 false x0 x1 x2 x3).
Proof. unfold mirror2. calm_tac. Qed.
Global Hint Resolve mirror2_calm : calm.

Lemma periodic2_sim x0 x1 x2 x3 : rsim (periodic2 true x0 x1 x2 x3) (periodic2 false x0 x1 x2 x3).
Proof. unfold periodic2. sim_tac. Qed.
Global Hint Resolve periodic2_sim : sim.

Lemma periodic2_calm x0 x1 x2 x3 : calm (periodic2 false x0 x1 x2 x3).
Proof. unfold periodic2. calm_tac. Qed.
Global Hint Resolve periodic2_calm : calm.

Lemma srange2_sim x0 x1 x2 : rsim (srange2 true x0 x1 x2) (srange2 false x0 x1 x2).
Proof. unfold srange2. sim_tac. Qed.
Global Hint Resolve srange2_sim : sim.

Lemma srange2_calm x0 x1 x2 : calm (srange2 false x0 x1 x2).
Proof. unfold srange2. calm_tac. Qed.
Global Hint Resolve srange2_calm : calm.

Lemma scheck_dim_calm x0 x1 x2 x3 : calm (scheck_dim x0 x1 x2 x3).
Proof. unfold scheck_dim. calm_tac. Qed.
Global Hint Resolve scheck_dim_calm : calm.

Lemma scheck2_calm x0 : calm (scheck2 x0).
Proof. unfold scheck2. calm_tac. Qed.
Global Hint Resolve scheck2_calm : calm.

Lemma check_d3_checks x0 : checks (check_d3 true x0).
Proof. unfold check_d3. checks_tac. Qed.
Global Hint Resolve check_d3_checks : checks.

Lemma check_d3_sim x0 : rsim (check_d3 true x0) (check_d3 false x0).
Proof. unfold check_d3. sim_tac. Qed.
Global Hint Resolve check_d3_sim : sim.

Lemma check_d3_calm x0 : calm (check_d3 false x0).
Proof. unfold check_d3. calm_tac. Qed.
Global Hint Resolve check_d3_calm : calm.

Lemma idx3_checks x0 x1 : checks (idx3 x0 x1).
Proof. unfold idx3. checks_tac. Qed.
Global Hint Resolve idx3_checks : checks.

Lemma idx3_calm x0 x1 : calm (idx3 x0 x1).
Proof. unfold idx3. calm_tac. Qed.
Global Hint Resolve idx3_calm : calm.

Lemma rbegin3_checks x0 x1 : checks (rbegin3 true x0 x1).
Proof. unfold rbegin3. checks_tac. Qed.
Global Hint Resolve rbegin3_checks : checks.

Lemma rbegin3_sim x0 x1 : rsim (rbegin3 true x0 x1) (rbegin3 false x0 x1).
Proof. unfold rbegin3. sim_tac. Qed.
Global Hint Resolve rbegin3_sim : sim.

Lemma rbegin3_calm x0 x1 : calm (rbegin3 false x0 x1).
Proof. unfold rbegin3. calm_tac. Qed.
Global Hint Resolve rbegin3_calm : calm.

Lemma rsize3_checks x0 x1 : checks (rsize3 true x0 x1).
Proof. unfold rsize3. checks_tac. Qed.
Global Hint Resolve rsize3_checks : checks.

Lemma rsize3_sim x0 x1 : rsim (rsize3 true x0 x1) (rsize3 false x0 x1).
Proof. unfold rsize3. sim_tac. Qed.
Global Hint Resolve rsize3_sim : sim.

Lemma rsize3_calm x0 x1 : calm (rsize3 false x0 x1).
Proof. unfold rsize3. calm_tac. Qed.
Global Hint Resolve rsize3_calm : calm.

Lemma rend3_checks x0 x1 : checks (rend3 true x0 x1).
Proof. unfold rend3. checks_tac. Qed.
Global Hint Resolve rend3_checks : checks.

Lemma rend3_sim x0 x1 : rsim (rend3 true x0 x1) (rend3 false x0 x1).
Proof. unfold rend3. sim_tac. Qed.
Global Hint Resolve rend3_sim : sim.

Lemma rend3_calm x0 x1 : calm (rend3 false x0 x1).
Proof. unfold rend3. calm_tac. Qed.
Global Hint Resolve rend3_calm : calm.

Lemma rlast3_checks x0 x1 : checks (rlast3 true x0 x1).
Proof. unfold rlast3. checks_tac. Qed.
Global Hint Resolve rlast3_checks : checks.

Lemma rlast3_sim x0 x1 : rsim (rlast3 true x0 x1) (rlast3 false x0 x1).
Proof. unfold rlast3. sim_tac. Qed.
Global Hint Resolve rlast3_sim : sim.

Lemma rlast3_calm x0 x1 : calm (rlast3 false x0 x1).
Proof. unfold rlast3. calm_tac. Qed.
Global Hint Resolve rlast3_calm : calm.

Lemma rbound3_checks x0 x1 x2 : checks (rbound3 true x0 x1 x2).
Proof. unfold rbound3. checks_tac. Qed.
Global Hint Resolve rbound3_checks : checks.

Lemma rbound3_sim x0 x1 x2 : rsim (rbound3 true x0 x1 x2) (rbound3 false x0 x1 x2).
Proof. unfold rbound3. sim_tac. Qed.
Global Hint Resolve rbound3_sim : sim.

Lemma rbound3_calm x0 x1 x2 : calm (rbound3 false x0 x1 x2).
Proof. unfold rbound3. calm_tac. Qed.
Global Hint Resolve rbound3_calm : calm.

Lemma cut_head3_checks x0 x1 x2 x3 : checks (cut_head3 x0 x1 x2 x3).
Proof. unfold cut_head3. checks_tac. Qed.
Global Hint Resolve cut_head3_checks : checks.

Lemma cut_head3_calm x0 x1 x2 x3 : calm (cut_head3 x0 x1 x2 x3).
Proof. unfold cut_head3. calm_tac. Qed.
Global Hint Resolve cut_head3_calm : calm.

Lemma cut_tail3_checks x0 x1 x2 x3 : checks (cut_tail3 x0 x1 x2 x3).
Proof. unfold cut_tail3. checks_tac. Qed.
Global Hint Resolve cut_tail3_checks : checks.

Lemma cut_tail3_calm x0 x1 x2 x3 : calm (cut_tail3 x0 x1 x2 x3).
Proof. unfold cut_tail3. calm_tac. Qed.
Global Hint Resolve cut_tail3_calm : calm.

Lemma tran3_checks x0 x1 x2 x3 : checks (tran3 x0 x1 x2 x3).
Proof. unfold tran3. checks_tac. Qed.
Global Hint Resolve tran3_checks : checks.

Lemma tran3_calm x0 x1 x2 x3 : calm (tran3 x0 x1 x2 x3).
Proof. unfold tran3. calm_tac. Qed.
Global Hint Resolve tran3_calm : calm.

Lemma is_overlap3_checks x0 x1 : checks (is_overlap3 true x0 x1).
Proof. unfold is_overlap3. checks_tac. Qed.
Global Hint Resolve is_overlap3_checks : checks.

Lemma is_overlap3_sim x0 x1 : rsim (is_overlap3 true x0 x1) (is_overlap3 false x0 x1).
Proof. unfold is_overlap3. sim_tac. Qed.
Global Hint Resolve is_overlap3_sim : sim.

Lemma is_overlap3_calm x0 x1 : calm (is_overlap3 false x0 x1).
Proof. unfold is_overlap3. calm_tac. Qed.
Global Hint Resolve is_overlap3_calm : calm.

Lemma overlap3_sim x0 x1 : rsim (overlap3 true x0 x1) (overlap3 false x0 x1).
Proof. unfold overlap3. sim_tac. Qed.
Global Hint Resolve overlap3_sim : sim.

Lemma overlap3_calm x0 x1 : calm (overlap3 false x0 x1).
Proof. unfold overlap3. calm_tac. Qed.
Global Hint Resolve overlap3_calm : calm.

Lemma check_range3_sim x0 x1 x2 x3 x4 : rsim (check_range3 true x0 x1 x2 x3 x4) (check_range3 false x0 x1 x2 x3 x4).
Proof. unfold check_range3. sim_tac. Qed.
Global Hint Resolve check_range3_sim : sim.

Lemma check_range3_calm x0 x1 x2 x3 x4 : calm (check_range3 false x0 x1 x2 x3 x4).
Proof. unfold check_range3. calm_tac. Qed.
Global Hint Resolve check_range3_calm : calm.

Lemma check_range3_c_sim x0 x1 x2 : rsim (check_range3_c true x0 x1 x2) (check_range3_c false x0 x1 x2).
Proof. unfold check_range3_c. sim_tac. Qed.
Global Hint Resolve check_range3_c_sim : sim.

Lemma check_range3_c_calm x0 x1 x2 : calm (check_range3_c false x0 x1 x2).
Proof. unfold check_range3_c. calm_tac. Qed.
Global Hint Resolve check_range3_c_calm : calm.

Lemma PD_For_3D_sim {S} x0 f g : (forall i0 i1 i2, msim (f i0 i1 i2) (g i0 i1 i2)) ->
  msim (@PD_For_3D S true x0 f) (@PD_For_3D S false x0 g).
Proof. intro H. unfold PD_For_3D. sim_tac. Qed.
Global Hint Resolve PD_For_3D_sim : sim.

Lemma PD_For_N_3D_sim {S} x0 x1 x2 f g : (forall i0 i1 i2 i3, msim (f i0 i1 i2 i3) (g i0 i1 i2 i3)) ->
  msim (@PD_For_N_3D S true x0 x1 x2 f) (@PD_For_N_3D S false x0 x1 x2 g).
Proof. intro H. unfold PD_For_N_3D. sim_tac. Qed.
Global Hint Resolve PD_For_N_3D_sim : sim.

Lemma PD_Reduce_3D_sim {S} {T} x0 x1 x2 f g : (forall i0 i1 i2, msim (f i0 i1 i2) (g i0 i1 i2)) ->
  msim (@PD_Reduce_3D S T true x0 x1 x2 f) (@PD_Reduce_3D S T false x0 x1 x2 g).
Proof. intro H. unfold PD_Reduce_3D. sim_tac. Qed.
Global Hint Resolve PD_Reduce_3D_sim : sim.

Lemma PD_Reduce_N_3D_sim {S} {T} x0 x1 x2 x3 x4 f g : (forall i0 i1 i2 i3, msim (f i0 i1 i2 i3) (g i0 i1 i2 i3)) ->
  msim (@PD_Reduce_N_3D S T true x0 x1 x2 x3 x4 f) (@PD_Reduce_N_3D S T false x0 x1 x2 x3 x4 g).
Proof. intro H. unfold PD_Reduce_N_3D. sim_tac. Qed.
Global Hint Resolve PD_Reduce_N_3D_sim : sim.

Lemma PD_For_2D_3_sim {S} x0 x1 x2 f g : (forall i0 i1, msim (f i0 i1) (g i0 i1)) ->
  msim (@PD_For_2D_3 S true x0 x1 x2 f) (@PD_For_2D_3 S false x0 x1 x2 g).
Proof. intro H. unfold PD_For_2D_3. sim_tac. Qed.
Global Hint Resolve PD_For_2D_3_sim : sim.

Lemma PD_For_N_2D_3_sim {S} x0 x1 x2 x3 x4 f g : (forall i0 i1 i2, msim (f i0 i1 i2) (g i0 i1 i2)) ->
  msim (@PD_For_N_2D_3 S true x0 x1 x2 x3 x4 f) (@PD_For_N_2D_3 S false x0 x1 x2 x3 x4 g).
Proof. intro H. unfold PD_For_N_2D_3. sim_tac. Qed.
Global Hint Resolve PD_For_N_2D_3_sim : sim.

Lemma PD_Reduce_2D_3_sim {S} {T} x0 x1 x2 x3 x4 f g : (forall i0 i1, msim (f i0 i1) (g i0 i1)) ->
  msim (@PD_Reduce_2D_3 S T true x0 x1 x2 x3 x4 f) (@PD_Reduce_2D_3 S T false x0 x1 x2 x3 x4 g).
Proof. intro H. unfold PD_Reduce_2D_3. sim_tac. Qed.
Global Hint Resolve PD_Reduce_2D_3_sim : sim.

Lemma PD_Reduce_N_2D_3_sim {S} {T} x0 x1 x2 x3 x4 x5 x6 f g : (forall i0 i1 i2, msim (f i0 i1 i2) (g i0 i1 i2)) ->
  msim (@PD_Reduce_N_2D_3 S T true x0 x1 x2 x3 x4 x5 x6 f) (@PD_Reduce_N_2D_3 S T false x0 x1 x2 x3 x4 x5 x6 g).
Proof. intro H. unfold PD_Reduce_N_2D_3. sim_tac. Qed.
Global Hint Resolve PD_Reduce_N_2D_3_sim : sim.

Lemma PD_For_1D_3_sim {S} x0 x1 f g : (forall i0, msim (f i0) (g i0)) ->
  msim (@PD_For_1D_3 S true x0 x1 f) (@PD_For_1D_3 S false x0 x1 g).
Proof. intro H. unfold PD_For_1D_3. sim_tac. Qed.
Global Hint Resolve PD_For_1D_3_sim : sim.

Lemma PD_For_N_1D_3_sim {S} x0 x1 x2 x3 f g : (forall i0 i1, msim (f i0 i1) (g i0 i1)) ->
  msim (@PD_For_N_1D_3 S true x0 x1 x2 x3 f) (@PD_For_N_1D_3 S false x0 x1 x2 x3 g).
Proof. intro H. unfold PD_For_N_1D_3. sim_tac. Qed.
Global Hint Resolve PD_For_N_1D_3_sim : sim.

Lemma PD_Reduce_1D_3_sim {S} {T} x0 x1 x2 x3 f g : (forall i0, msim (f i0) (g i0)) ->
  msim (@PD_Reduce_1D_3 S T true x0 x1 x2 x3 f) (@PD_Reduce_1D_3 S T false x0 x1 x2 x3 g).
Proof. intro H. unfold PD_Reduce_1D_3. sim_tac. Qed.
Global Hint Resolve PD_Reduce_1D_3_sim : sim.

Lemma PD_Reduce_N_1D_3_sim {S} {T} x0 x1 x2 x3 x4 x5 f g : (forall i0 i1, msim (f i0 i1) (g i0 i1)) ->
  msim (@PD_Reduce_N_1D_3 S T true x0 x1 x2 x3 x4 x5 f) (@PD_Reduce_N_1D_3 S T false x0 x1 x2 x3 x4 x5 g).
Proof. intro H. unfold PD_Reduce_N_1D_3. sim_tac. Qed.
Global Hint Resolve PD_Reduce_N_1D_3_sim : sim.

Lemma sin3_sim x0 x1 : rsim (sin3 true x0 x1) (sin3 false x0 x1).
Proof. unfold sin3. sim_tac. Qed.
Global Hint Resolve sin3_sim : sim.

Lemma sin3_calm x0 x1 : calm (sin3 false x0 x1).
Proof. unfold sin3. calm_tac. Qed.
Global Hint Resolve sin3_calm : calm.

Lemma sn3_sim x0 x1 : rsim (sn3 true x0 x1) (sn3 false x0 x1).
Proof. unfold sn3. sim_tac. Qed.
Global Hint Resolve sn3_sim : sim.

Lemma sn3_calm x0 x1 : calm (sn3 false x0 x1).
Proof. unfold sn3. calm_tac. Qed.
Global Hint Resolve sn3_calm : calm.

Lemma sp3_sim x0 x1 : rsim (sp3 true x0 x1) (sp3 false x0 x1).
Proof. unfold sp3. sim_tac. Qed.
Global Hint Resolve sp3_sim : sim.

Lemma sp3_calm x0 x1 : calm (sp3 false x0 x1).
Proof. unfold sp3. calm_tac. Qed.
Global Hint Resolve sp3_calm : calm.

Lemma sbegin3_sim x0 x1 x2 : rsim (sbegin3 true x0 x1 x2) (sbegin3 false x0 x1 x2).
Proof. unfold sbegin3. sim_tac. Qed.
Global Hint Resolve sbegin3_sim : sim.

Lemma sbegin3_calm x0 x1 x2 : calm (sbegin3 false x0 x1 x2).
Proof. unfold sbegin3. calm_tac. Qed.
Global Hint Resolve sbegin3_calm : calm.

Lemma send3_sim x0 x1 x2 : rsim (send3 true x0 x1 x2) (send3 false x0 x1 x2).
Proof. unfold send3. sim_tac. Qed.
Global Hint Resolve send3_sim : sim.

Lemma send3_calm x0 x1 x2 : calm (send3 false x0 x1 x2).
Proof. unfold send3. calm_tac. Qed.
Global Hint Resolve send3_calm : calm.

Lemma ssize3_sim x0 x1 x2 : rsim (ssize3 true x0 x1 x2) (ssize3 false x0 x1 x2).
Proof. unfold ssize3. sim_tac. Qed.
Global Hint Resolve ssize3_sim : sim.

Lemma ssize3_calm x0 x1 x2 : calm (ssize3 false x0 x1 x2).
Proof. unfold ssize3. calm_tac. Qed.
Global Hint Resolve ssize3_calm : calm.

Lemma slast3_sim x0 x1 x2 : rsim (slast3 true x0 x1 x2) (slast3 false x0 x1 x2).
Proof. unfold slast3. sim_tac. Qed.
Global Hint Resolve slast3_sim : sim.

Lemma slast3_calm x0 x1 x2 : calm (slast3 false x0 x1 x2).
Proof. unfold slast3. calm_tac. Qed.
Global Hint Resolve slast3_calm : calm.

Lemma sbound3_sim x0 x1 x2 x3 : rsim (sbound3 true x0 x1 x2 x3) (sbound3 false x0 x1 x2 x3).
Proof. unfold sbound3. sim_tac. Qed.
Global Hint Resolve sbound3_sim : sim.

Lemma sbound3_calm x0 x1 x2 x3 : calm (sbound3 false x0 x1 x2 x3).
Proof. unfold sbound3. calm_tac. Qed.
Global Hint Resolve sbound3_calm : calm.

Lemma mirror3_sim x0 x1 x2 x3 : rsim (mirror3 true x0 x1 x2 x3) (mirror3 false x0 x1 x2 x3).
Proof. unfold mirror3. sim_tac. Qed.
Global Hint Resolve mirror3_sim : sim.

Lemma mirror3_calm x0 x1 x2 x3 : calm (mirror3 false x0 x1 x2 x3).
Proof. unfold mirror3. calm_tac. Qed.
Global Hint Resolve mirror3_calm : calm.

Lemma periodic3_sim x0 x1 x2 x3 : rsim (periodic3 true x0 x1 x2 x3) (periodic3 false x0 x1 x2 x3).
Proof. unfold periodic3. sim_tac. Qed.
Global Hint Resolve periodic3_sim : sim.

Lemma periodic3_calm x0 x1 x2 x3 : calm (periodic3 false x0 x1 x2 x3).
Proof. unfold periodic3. calm_tac. Qed.
Global Hint Resolve periodic3_calm : calm.

Lemma srange3_sim x0 x1 x2 x3 : rsim (srange3 true x0 x1 x2 x3) (srange3 false x0 x1 x2 x3).
Proof. unfold srange3. sim_tac. Qed.
Global Hint Resolve srange3_sim : sim.

Lemma srange3_calm x0 x1 x2 x3 : calm (srange3 false x0 x1 x2 x3).
Proof. unfold srange3. calm_tac. Qed.
Global Hint Resolve srange3_calm : calm.

Lemma scheck3_calm x0 : calm (scheck3 x0).
Proof. unfold scheck3. calm_tac. Qed.
Global Hint Resolve scheck3_calm : calm.

Lemma check_n_checks x0 x1 : checks (check_n true x0 x1).
Proof. unfold check_n. checks_tac. Qed.
Global Hint Resolve check_n_checks : checks.

Lemma check_n_sim x0 x1 : rsim (check_n true x0 x1) (check_n false x0 x1).
Proof. unfold check_n. sim_tac. Qed.
Global Hint Resolve check_n_sim : sim.

Lemma check_n_calm x0 x1 : calm (check_n false x0 x1).
Proof. unfold check_n. calm_tac. Qed.
Global Hint Resolve check_n_calm : calm.

Lemma check_flag_dim_checks x0 x1 x2 : checks (check_flag_dim true x0 x1 x2).
Proof. unfold check_flag_dim. checks_tac. Qed.
Global Hint Resolve check_flag_dim_checks : checks.

Lemma check_flag_dim_sim x0 x1 x2 : rsim (check_flag_dim true x0 x1 x2) (check_flag_dim false x0 x1 x2).
Proof. unfold check_flag_dim. sim_tac. Qed.
Global Hint Resolve check_flag_dim_sim : sim.

Lemma check_flag_dim_calm x0 x1 x2 : calm (check_flag_dim false x0 x1 x2).
Proof. unfold check_flag_dim. calm_tac. Qed.
Global Hint Resolve check_flag_dim_calm : calm.

Lemma check_data_checks x0 : checks (check_data true x0).
Proof. unfold check_data. checks_tac. Qed.
Global Hint Resolve check_data_checks : checks.

Lemma check_data_sim x0 : rsim (check_data true x0) (check_data false x0).
Proof. unfold check_data. sim_tac. Qed.
Global Hint Resolve check_data_sim : sim.

Lemma check_data_calm x0 : calm (check_data false x0).
Proof. unfold check_data. calm_tac. Qed.
Global Hint Resolve check_data_calm : calm.

Lemma set_size1_calm {V} x0 : mcalm (@set_size1 V x0).
Proof. unfold set_size1. calm_tac. Qed.
Global Hint Resolve set_size1_calm : calm.

Lemma set_data1_calm {V} x0 : mcalm (@set_data1 V x0).
Proof. unfold set_data1. calm_tac. Qed.
Global Hint Resolve set_data1_calm : calm.

Lemma set_pt0_1_calm {V} x0 x1 : mcalm (@set_pt0_1 V x0 x1).
Proof. unfold set_pt0_1. calm_tac. Qed.
Global Hint Resolve set_pt0_1_calm : calm.

Lemma ctor1_calm {V} x0 : mcalm (@ctor1 V x0).
Proof. unfold ctor1. calm_tac. Qed.
Global Hint Resolve ctor1_calm : calm.

Lemma alloc1_sim {V} x0 x1 x2 x3 x4 : msim (@alloc1 V true x0 x1 x2 x3 x4) (@alloc1 V false x0 x1 x2 x3 x4).
Proof. unfold alloc1. sim_tac. Qed.
Global Hint Resolve alloc1_sim : sim.

Lemma alloc1_calm {V} x0 x1 x2 x3 x4 : mcalm (@alloc1 V false x0 x1 x2 x3 x4).
Proof. unfold alloc1. calm_tac. Qed.
Global Hint Resolve alloc1_calm : calm.

Lemma ctor1_sized_sim {V} x0 x1 x2 x3 x4 : msim (@ctor1_sized V true x0 x1 x2 x3 x4) (@ctor1_sized V false x0 x1 x2 x3 x4).
Proof. unfold ctor1_sized. sim_tac. Qed.
Global Hint Resolve ctor1_sized_sim : sim.

Lemma ctor1_sized_calm {V} x0 x1 x2 x3 x4 : mcalm (@ctor1_sized V false x0 x1 x2 x3 x4).
Proof. unfold ctor1_sized. calm_tac. Qed.
Global Hint Resolve ctor1_sized_calm : calm.

Lemma clear1_calm {V} x0 : mcalm (@clear1 V x0).
Proof. unfold clear1. calm_tac. Qed.
Global Hint Resolve clear1_calm : calm.

Lemma realloc1_sim {V} x0 x1 x2 x3 x4 : msim (@realloc1 V true x0 x1 x2 x3 x4) (@realloc1 V false x0 x1 x2 x3 x4).
Proof. unfold realloc1. sim_tac. Qed.
Global Hint Resolve realloc1_sim : sim.

Lemma realloc1_calm {V} x0 x1 x2 x3 x4 : mcalm (@realloc1 V false x0 x1 x2 x3 x4).
Proof. unfold realloc1. calm_tac. Qed.
Global Hint Resolve realloc1_calm : calm.

Lemma dtor1_calm {V} x0 : mcalm (@dtor1 V x0).
Proof. unfold dtor1. calm_tac. Qed.
Global Hint Resolve dtor1_calm : calm.

Lemma lval1_calm {V} x0 x1 x2 x3 : calm (@lval1 V x0 x1 x2 x3).
Proof. unfold lval1. calm_tac. Qed.
Global Hint Resolve lval1_calm : calm.

Lemma at1_sim {V} x0 x1 x2 x3 x4 x5 x6 : rsim (@at1 V true x0 x1 x2 x3 x4 x5 x6) (@at1 V false x0 x1 x2 x3 x4 x5 x6).
Proof. unfold at1. sim_tac. Qed.
Global Hint Resolve at1_sim : sim.

Lemma at1_calm {V} x0 x1 x2 x3 x4 x5 x6 : calm (@at1 V false x0 x1 x2 x3 x4 x5 x6).
Proof. unfold at1. calm_tac. Qed.
Global Hint Resolve at1_calm : calm.

Lemma data_pt1_sim {V} x0 x1 x2 x3 : rsim (@data_pt1 V true x0 x1 x2 x3) (@data_pt1 V false x0 x1 x2 x3).
Proof. unfold data_pt1. sim_tac. Qed.
Global Hint Resolve data_pt1_sim : sim.

Lemma data_pt1_calm {V} x0 x1 x2 x3 : calm (@data_pt1 V false x0 x1 x2 x3).
Proof. unfold data_pt1. calm_tac. Qed.
Global Hint Resolve data_pt1_calm : calm.

Lemma disp_data1_sim {V} x0 x1 x2 x3 : msim (@disp_data1 V true x0 x1 x2 x3) (@disp_data1 V false x0 x1 x2 x3).
Proof. unfold disp_data1. sim_tac. Qed.
Global Hint Resolve disp_data1_sim : sim.

Lemma disp_data1_calm {V} x0 x1 x2 x3 : mcalm (@disp_data1 V false x0 x1 x2 x3).
Proof. unfold disp_data1. calm_tac. Qed.
Global Hint Resolve disp_data1_calm : calm.

Lemma copy_from1_sim {V} x0 x1 x2 x3 x4 x5 x6 x7 x8 : msim (@copy_from1 V true x0 x1 x2 x3 x4 x5 x6 x7 x8) (@copy_from1 V false x0 x1 x2 x3 x4 x5 x6 x7 x8).
Proof. unfold copy_from1. sim_tac. Qed.
Global Hint Resolve copy_from1_sim : sim.

Lemma copy_from1_calm {V} x0 x1 x2 x3 x4 x5 x6 x7 x8 : mcalm (@copy_from1 V false x0 x1 x2 x3 x4 x5 x6 x7 x8).
Proof. unfold copy_from1. calm_tac. Qed.
Global Hint Resolve copy_from1_calm : calm.

Lemma copy_from1_tag_sim {V} x0 x1 x2 x3 x4 x5 x6 x7 x8 : msim (@copy_from1_tag V true x0 x1 x2 x3 x4 x5 x6 x7 x8) (@copy_from1_tag V false x0 x1 x2 x3 x4 x5 x6 x7 x8).
Proof. unfold copy_from1_tag. sim_tac. Qed.
Global Hint Resolve copy_from1_tag_sim : sim.

Lemma copy_from1_tag_calm {V} x0 x1 x2 x3 x4 x5 x6 x7 x8 : mcalm (@copy_from1_tag V false x0 x1 x2 x3 x4 x5 x6 x7 x8).
Proof. unfold copy_from1_tag. calm_tac. Qed.
Global Hint Resolve copy_from1_tag_calm : calm.

Lemma copy_from1_fl_sim {V} x0 x1 x2 x3 x4 x5 x6 x7 : msim (@copy_from1_fl V true x0 x1 x2 x3 x4 x5 x6 x7) (@copy_from1_fl V false x0 x1 x2 x3 x4 x5 x6 x7).
Proof. unfold copy_from1_fl. sim_tac. Qed.
Global Hint Resolve copy_from1_fl_sim : sim.

Lemma copy_from1_fl_calm {V} x0 x1 x2 x3 x4 x5 x6 x7 : mcalm (@copy_from1_fl V false x0 x1 x2 x3 x4 x5 x6 x7).
Proof. unfold copy_from1_fl. calm_tac. Qed.
Global Hint Resolve copy_from1_fl_calm : calm.

Lemma copy_from1_tag_fl_sim {V} x0 x1 x2 x3 x4 x5 x6 x7 : msim (@copy_from1_tag_fl V true x0 x1 x2 x3 x4 x5 x6 x7) (@copy_from1_tag_fl V false x0 x1 x2 x3 x4 x5 x6 x7).
Proof. unfold copy_from1_tag_fl. sim_tac. Qed.
Global Hint Resolve copy_from1_tag_fl_sim : sim.

Lemma copy_from1_tag_fl_calm {V} x0 x1 x2 x3 x4 x5 x6 x7 : mcalm (@copy_from1_tag_fl V false x0 x1 x2 x3 x4 x5 x6 x7).
Proof. unfold copy_from1_tag_fl. calm_tac. Qed.
Global Hint Resolve copy_from1_tag_fl_calm : calm.

Lemma set_size2_calm {V} x0 : mcalm (@set_size2 V x0).
Proof. unfold set_size2. calm_tac. Qed.
Global Hint Resolve set_size2_calm : calm.

Lemma set_data2_calm {V} x0 : mcalm (@set_data2 V x0).
Proof. unfold set_data2. calm_tac. Qed.
Global Hint Resolve set_data2_calm : calm.

Lemma set_pt1_2_calm {V} x0 : mcalm (@set_pt1_2 V x0).
Proof. unfold set_pt1_2. calm_tac. Qed.
Global Hint Resolve set_pt1_2_calm : calm.

Lemma set_pt0_2_calm {V} x0 x1 : mcalm (@set_pt0_2 V x0 x1).
Proof. unfold set_pt0_2. calm_tac. Qed.
Global Hint Resolve set_pt0_2_calm : calm.

Lemma ctor2_calm {V} x0 : mcalm (@ctor2 V x0).
Proof. unfold ctor2. calm_tac. Qed.
Global Hint Resolve ctor2_calm : calm.

Lemma alloc2_sim {V} x0 x1 x2 x3 x4 x5 x6 x7 x8 : msim (@alloc2 V true x0 x1 x2 x3 x4 x5 x6 x7 x8) (@alloc2 V false x0 x1 x2 x3 x4 x5 x6 x7 x8).
Proof. unfold alloc2. sim_tac. Qed.
Global Hint Resolve alloc2_sim : sim.

Lemma alloc2_calm {V} x0 x1 x2 x3 x4 x5 x6 x7 x8 : mcalm (@alloc2 V false x0 x1 x2 x3 x4 x5 x6 x7 x8).
Proof. unfold alloc2. calm_tac. Qed.
Global Hint Resolve alloc2_calm : calm.

Lemma ctor2_sized_sim {V} x0 x1 x2 x3 x4 x5 x6 x7 x8 : msim (@ctor2_sized V true x0 x1 x2 x3 x4 x5 x6 x7 x8) (@ctor2_sized V false x0 x1 x2 x3 x4 x5 x6 x7 x8).
Proof. unfold ctor2_sized. sim_tac. Qed.
Global Hint Resolve ctor2_sized_sim : sim.

Lemma ctor2_sized_calm {V} x0 x1 x2 x3 x4 x5 x6 x7 x8 : mcalm (@ctor2_sized V false x0 x1 x2 x3 x4 x5 x6 x7 x8).
Proof. unfold ctor2_sized. calm_tac. Qed.
Global Hint Resolve ctor2_sized_calm : calm.

Lemma clear2_calm {V}  : mcalm (@clear2 V).
Proof. unfold clear2. calm_tac. Qed.
Global Hint Resolve clear2_calm : calm.

Lemma realloc2_sim {V} x0 x1 x2 x3 x4 x5 x6 x7 x8 : msim (@realloc2 V true x0 x1 x2 x3 x4 x5 x6 x7 x8) (@realloc2 V false x0 x1 x2 x3 x4 x5 x6 x7 x8).
Proof. unfold realloc2. sim_tac. Qed.
Global Hint Resolve realloc2_sim : sim.

Lemma realloc2_calm {V} x0 x1 x2 x3 x4 x5 x6 x7 x8 : mcalm (@realloc2 V false x0 x1 x2 x3 x4 x5 x6 x7 x8).
Proof. unfold realloc2. calm_tac. Qed.
Global Hint Resolve realloc2_calm : calm.

Lemma dtor2_calm {V}  : mcalm (@dtor2 V).
Proof. unfold dtor2. calm_tac. Qed.
Global Hint Resolve dtor2_calm : calm.

Lemma lval2_calm {V} x0 x1 x2 x3 x4 : calm (@lval2 V x0 x1 x2 x3 x4).
Proof. unfold lval2. calm_tac. Qed.
Global Hint Resolve lval2_calm : calm.

Lemma at2_sim {V} x0 x1 x2 x3 x4 x5 x6 x7 x8 x9 : rsim (@at2 V true x0 x1 x2 x3 x4 x5 x6 x7 x8 x9) (@at2 V false x0 x1 x2 x3 x4 x5 x6 x7 x8 x9).
Proof. unfold at2. sim_tac. Qed.
Global Hint Resolve at2_sim : sim.

Lemma at2_calm {V} x0 x1 x2 x3 x4 x5 x6 x7 x8 x9 : calm (@at2 V false x0 x1 x2 x3 x4 x5 x6 x7 x8 x9).
Proof. unfold at2. calm_tac. Qed.
Global Hint Resolve at2_calm : calm.

Lemma data_pt2_sim {V} x0 x1 x2 x3 : rsim (@data_pt2 V true x0 x1 x2 x3) (@data_pt2 V false x0 x1 x2 x3).
Proof. unfold data_pt2. sim_tac. Qed.
Global Hint Resolve data_pt2_sim : sim.

Lemma data_pt2_calm {V} x0 x1 x2 x3 : calm (@data_pt2 V false x0 x1 x2 x3).
Proof. unfold data_pt2. calm_tac. Qed.
Global Hint Resolve data_pt2_calm : calm.

Lemma disp_data2_sim {V} x0 x1 x2 x3 x4 : msim (@disp_data2 V true x0 x1 x2 x3 x4) (@disp_data2 V false x0 x1 x2 x3 x4).
Proof. unfold disp_data2. sim_tac. Qed.
Global Hint Resolve disp_data2_sim : sim.

Lemma disp_data2_calm {V} x0 x1 x2 x3 x4 : mcalm (@disp_data2 V false x0 x1 x2 x3 x4).
Proof. unfold disp_data2. calm_tac. Qed.
Global Hint Resolve disp_data2_calm : calm.

Lemma copy_from2_sim {V} x0 x1 x2 x3 x4 x5 x6 x7 x8 x9 x10 x11 : msim (@copy_from2 V true x0 x1 x2 x3 x4 x5 x6 x7 x8 x9 x10 x11) (@copy_from2 V false x0 x1 x2 x3 x4 x5 x6 x7 x8 x9 x10 x11).
Proof. unfold copy_from2. sim_tac. Qed.
Global Hint Resolve copy_from2_sim : sim.

Lemma copy_from2_calm {V} x0 x1 x2 x3 x4 x5 x6 x7 x8 x9 x10 x11 : mcalm (@copy_from2 V false x0 x1 x2 x3 x4 x5 x6 x7 x8 x9 x10 x11).
Proof. unfold copy_from2. calm_tac. Qed.
Global Hint Resolve copy_from2_calm : calm.

Lemma copy_from2_tag_sim {V} x0 x1 x2 x3 x4 x5 x6 x7 x8 x9 x10 x11 x12 x13 : msim (@copy_from2_tag V true x0 x1 x2 x3 x4 x5 x6 x7 x8 x9 x10 x11 x12 x13) (@copy_from2_tag V false x0 x1 x2 x3 x4 x5 x6 x7 x8 x9 x10 x11 x12 x13).
Proof. unfold copy_from2_tag. sim_tac. Qed.
Global Hint Resolve copy_from2_tag_sim : sim.

Lemma copy_from2_tag_calm {V} x0 x1 x2 x3 x4 x5 x6 x7 x8 x9 x10 x11 x12 x13 : mcalm (@copy_from2_tag V false x0 x1 x2 x3 x4 x5 x6 x7 x8 x9 x10 x11 x12 x13).
Proof. unfold copy_from2_tag. calm_tac. Qed.
Global Hint Resolve copy_from2_tag_calm : calm.

Lemma copy_from2_fl_sim {V} x0 x1 x2 x3 x4 x5 x6 x7 x8 x9 : msim (@copy_from2_fl V true x0 x1 x2 x3 x4 x5 x6 x7 x8 x9) (@copy_from2_fl V false x0 x1 x2 x3 x4 x5 x6 x7 x8 x9).
Proof. unfold copy_from2_fl. sim_tac. Qed.
Global Hint Resolve copy_from2_fl_sim : sim.

Lemma copy_from2_fl_calm {V} x0 x1 x2 x3 x4 x5 x6 x7 x8 x9 : mcalm (@copy_from2_fl V false x0 x1 x2 x3 x4 x5 x6 x7 x8 x9).
Proof. unfold copy_from2_fl. calm_tac. Qed.
Global Hint Resolve copy_from2_fl_calm : calm.

Lemma copy_from2_tag_fl_sim {V} x0 x1 x2 x3 x4 x5 x6 x7 x8 x9 x10 x11 : msim (@copy_from2_tag_fl V true x0 x1 x2 x3 x4 x5 x6 x7 x8 x9 x10 x11) (@copy_from2_tag_fl V false x0 x1 x2 x3 x4 x5 x6 x7 x8 x9 x10 x11).
Proof. unfold copy_from2_tag_fl. sim_tac. Qed.
Global Hint Resolve copy_from2_tag_fl_sim : sim.

Lemma copy_from2_tag_fl_calm {V} x0 x1 x2 x3 x4 x5 x6 x7 x8 x9 x10 x11 : mcalm (@copy_from2_tag_fl V false x0 x1 x2 x3 x4 x5 x6 x7 x8 x9 x10 x11).
Proof. unfold copy_from2_tag_fl. calm_tac. Qed.
Global Hint Resolve copy_from2_tag_fl_calm : calm.

Lemma set_size3_calm {V} x0 : mcalm (@set_size3 V x0).
Proof. unfold set_size3. calm_tac. Qed.
Global Hint Resolve set_size3_calm : calm.

Lemma set_data3_calm {V} x0 : mcalm (@set_data3 V x0).
Proof. unfold set_data3. calm_tac. Qed.
Global Hint Resolve set_data3_calm : calm.

Lemma set_pt1_3_calm {V} x0 : mcalm (@set_pt1_3 V x0).
Proof. unfold set_pt1_3. calm_tac. Qed.
Global Hint Resolve set_pt1_3_calm : calm.

Lemma set_pt2_3_calm {V} x0 : mcalm (@set_pt2_3 V x0).
Proof. unfold set_pt2_3. calm_tac. Qed.
Global Hint Resolve set_pt2_3_calm : calm.

Lemma set_pt0_3_calm {V} x0 x1 : mcalm (@set_pt0_3 V x0 x1).
Proof. unfold set_pt0_3. calm_tac. Qed.
Global Hint Resolve set_pt0_3_calm : calm.

Lemma ctor3_calm {V} x0 : mcalm (@ctor3 V x0).
Proof. unfold ctor3. calm_tac. Qed.
Global Hint Resolve ctor3_calm : calm.

Lemma alloc3_sim {V} x0 x1 x2 x3 x4 x5 x6 x7 x8 x9 x10 x11 x12 : msim (@alloc3 V true x0 x1 x2 x3 x4 x5 x6 x7 x8 x9 x10 x11 x12) (@alloc3 V false x0 x1 x2 x3 x4 x5 x6 x7 x8 x9 x10 x11 x12).
Proof. unfold alloc3. sim_tac. Qed.
Global Hint Resolve alloc3_sim : sim.

Lemma alloc3_calm {V} x0 x1 x2 x3 x4 x5 x6 x7 x8 x9 x10 x11 x12 : mcalm (@alloc3 V false x0 x1 x2 x3 x4 x5 x6 x7 x8 x9 x10 x11 x12).
Proof. unfold alloc3. calm_tac. Qed.
Global Hint Resolve alloc3_calm : calm.

Lemma ctor3_sized_sim {V} x0 x1 x2 x3 x4 x5 x6 x7 x8 x9 x10 x11 x12 : msim (@ctor3_sized V true x0 x1 x2 x3 x4 x5 x6 x7 x8 x9 x10 x11 x12) (@ctor3_sized V false x0 x1 x2 x3 x4 x5 x6 x7 x8 x9 x10 x11 x12).
Proof. unfold ctor3_sized. sim_tac. Qed.
Global Hint Resolve ctor3_sized_sim : sim.

Lemma ctor3_sized_calm {V} x0 x1 x2 x3 x4 x5 x6 x7 x8 x9 x10 x11 x12 : mcalm (@ctor3_sized V false x0 x1 x2 x3 x4 x5 x6 x7 x8 x9 x10 x11 x12).
Proof. unfold ctor3_sized. calm_tac. Qed.
Global Hint Resolve ctor3_sized_calm : calm.

Lemma clear3_calm {V}  : mcalm (@clear3 V).
Proof. unfold clear3. calm_tac. Qed.
Global Hint Resolve clear3_calm : calm.

Lemma realloc3_sim {V} x0 x1 x2 x3 x4 x5 x6 x7 x8 x9 x10 x11 x12 : msim (@realloc3 V true x0 x1 x2 x3 x4 x5 x6 x7 x8 x9 x10 x11 x12) (@realloc3 V false x0 x1 x2 x3 x4 x5 x6 x7 x8 x9 x10 x11 x12).
Proof. unfold realloc3. sim_tac. Qed.
Global Hint Resolve realloc3_sim : sim.

Lemma realloc3_calm {V} x0 x1 x2 x3 x4 x5 x6 x7 x8 x9 x10 x11 x12 : mcalm (@realloc3 V false x0 x1 x2 x3 x4 x5 x6 x7 x8 x9 x10 x11 x12).
Proof. unfold realloc3. calm_tac. Qed.
Global Hint Resolve realloc3_calm : calm.

Lemma dtor3_calm {V}  : mcalm (@dtor3 V).
Proof. unfold dtor3. calm_tac. Qed.
Global Hint Resolve dtor3_calm : calm.

Lemma lval3_calm {V} x0 x1 x2 x3 x4 x5 : calm (@lval3 V x0 x1 x2 x3 x4 x5).
Proof. unfold lval3. calm_tac. Qed.
Global Hint Resolve lval3_calm : calm.

Lemma at3_sim {V} x0 x1 x2 x3 x4 x5 x6 x7 x8 x9 x10 x11 x12 : rsim (@at3 V true x0 x1 x2 x3 x4 x5 x6 x7 x8 x9 x10 x11 x12) (@at3 V false x0 x1 x2 x3 x4 x5 x6 x7 x8 x9 x10 x11 x12).
Proof. unfold at3. sim_tac. Qed.
Global Hint Resolve at3_sim : sim.

Lemma at3_calm {V} x0 x1 x2 x3 x4 x5 x6 x7 x8 x9 x10 x11 x12 : calm (@at3 V false x0 x1 x2 x3 x4 x5 x6 x7 x8 x9 x10 x11 x12).
Proof. unfold at3. calm_tac. Qed.
Global Hint Resolve at3_calm : calm.

Lemma data_pt3_sim {V} x0 x1 x2 x3 : rsim (@data_pt3 V true x0 x1 x2 x3) (@data_pt3 V false x0 x1 x2 x3).
Proof. unfold data_pt3. sim_tac. Qed.
Global Hint Resolve data_pt3_sim : sim.

Lemma data_pt3_calm {V} x0 x1 x2 x3 : calm (@data_pt3 V false x0 x1 x2 x3).
Proof. unfold data_pt3. calm_tac. Qed.
Global Hint Resolve data_pt3_calm : calm.

Lemma disp_data3_sim {V} x0 x1 x2 x3 x4 x5 : msim (@disp_data3 V true x0 x1 x2 x3 x4 x5) (@disp_data3 V false x0 x1 x2 x3 x4 x5).
Proof. unfold disp_data3. sim_tac. Qed.
Global Hint Resolve disp_data3_sim : sim.

Lemma disp_data3_calm {V} x0 x1 x2 x3 x4 x5 : mcalm (@disp_data3 V false x0 x1 x2 x3 x4 x5).
Proof. unfold disp_data3. calm_tac. Qed.
Global Hint Resolve disp_data3_calm : calm.

Lemma copy_from3_sim {V} x0 x1 x2 x3 x4 x5 x6 x7 x8 x9 x10 x11 x12 x13 x14 : msim (@copy_from3 V true x0 x1 x2 x3 x4 x5 x6 x7 x8 x9 x10 x11 x12 x13 x14) (@copy_from3 V false x0 x1 x2 x3 x4 x5 x6 x7 x8 x9 x10 x11 x12 x13 x14).
Proof. unfold copy_from3. sim_tac. Qed.
Global Hint Resolve copy_from3_sim : sim.

Lemma copy_from3_calm {V} x0 x1 x2 x3 x4 x5 x6 x7 x8 x9 x10 x11 x12 x13 x14 : mcalm (@copy_from3 V false x0 x1 x2 x3 x4 x5 x6 x7 x8 x9 x10 x11 x12 x13 x14).
Proof. unfold copy_from3. calm_tac. Qed.
Global Hint Resolve copy_from3_calm : calm.

Lemma copy_from3_tag_sim {V} x0 x1 x2 x3 x4 x5 x6 x7 x8 x9 x10 x11 x12 x13 x14 x15 x16 x17 x18 : msim (@copy_from3_tag V true x0 x1 x2 x3 x4 x5 x6 x7 x8 x9 x10 x11 x12 x13 x14 x15 x16 x17 x18) (@copy_from3_tag V false x0 x1 x2 x3 x4 x5 x6 x7 x8 x9 x10 x11 x12 x13 x14 x15 x16 x17 x18).
Proof. unfold copy_from3_tag. sim_tac. Qed.
Global Hint Resolve copy_from3_tag_sim : sim.

Lemma copy_from3_tag_calm {V} x0 x1 x2 x3 x4 x5 x6 x7 x8 x9 x10 x11 x12 x13 x14 x15 x16 x17 x18 : mcalm (@copy_from3_tag V false x0 x1 x2 x3 x4 x5 x6 x7 x8 x9 x10 x11 x12 x13 x14 x15 x16 x17 x18).
Proof. unfold copy_from3_tag. calm_tac. Qed.
Global Hint Resolve copy_from3_tag_calm : calm.

Lemma copy_from3_fl_sim {V} x0 x1 x2 x3 x4 x5 x6 x7 x8 x9 x10 x11 : msim (@copy_from3_fl V true x0 x1 x2 x3 x4 x5 x6 x7 x8 x9 x10 x11) (@copy_from3_fl V false x0 x1 x2 x3 x4 x5 x6 x7 x8 x9 x10 x11).
Proof. unfold copy_from3_fl. sim_tac. Qed.
Global Hint Resolve copy_from3_fl_sim : sim.

Lemma copy_from3_fl_calm {V} x0 x1 x2 x3 x4 x5 x6 x7 x8 x9 x10 x11 : mcalm (@copy_from3_fl V false x0 x1 x2 x3 x4 x5 x6 x7 x8 x9 x10 x11).
Proof. unfold copy_from3_fl. calm_tac. Qed.
Global Hint Resolve copy_from3_fl_calm : calm.

Lemma copy_from3_tag_fl_sim {V} x0 x1 x2 x3 x4 x5 x6 x7 x8 x9 x10 x11 x12 x13 x14 x15 : msim (@copy_from3_tag_fl V true x0 x1 x2 x3 x4 x5 x6 x7 x8 x9 x10 x11 x12 x13 x14 x15) (@copy_from3_tag_fl V false x0 x1 x2 x3 x4 x5 x6 x7 x8 x9 x10 x11 x12 x13 x14 x15).
Proof. unfold copy_from3_tag_fl. sim_tac. Qed.
Global Hint Resolve copy_from3_tag_fl_sim : sim.

Lemma copy_from3_tag_fl_calm {V} x0 x1 x2 x3 x4 x5 x6 x7 x8 x9 x10 x11 x12 x13 x14 x15 : mcalm (@copy_from3_tag_fl V false x0 x1 x2 x3 x4 x5 x6 x7 x8 x9 x10 x11 x12 x13 x14 x15).
Proof. unfold copy_from3_tag_fl. calm_tac. Qed.
Global Hint Resolve copy_from3_tag_fl_calm : calm.

Lemma m_ctor_sized_sim {V} x0 x1 : msim (@m_ctor_sized V true x0 x1) (@m_ctor_sized V false x0 x1).
Proof. unfold m_ctor_sized. sim_tac. Qed.
Global Hint Resolve m_ctor_sized_sim : sim.

Lemma m_ctor_sized_calm {V} x0 x1 : mcalm (@m_ctor_sized V false x0 x1).
Proof. unfold m_ctor_sized. calm_tac. Qed.
Global Hint Resolve m_ctor_sized_calm : calm.

Lemma m_alloc_sim {V} x0 x1 : msim (@m_alloc V true x0 x1) (@m_alloc V false x0 x1).
Proof. unfold m_alloc. sim_tac. Qed.
Global Hint Resolve m_alloc_sim : sim.

Lemma m_alloc_calm {V} x0 x1 : mcalm (@m_alloc V false x0 x1).
Proof. unfold m_alloc. calm_tac. Qed.
Global Hint Resolve m_alloc_calm : calm.

Lemma m_realloc_sim {V} x0 x1 : msim (@m_realloc V true x0 x1) (@m_realloc V false x0 x1).
Proof. unfold m_realloc. sim_tac. Qed.
Global Hint Resolve m_realloc_sim : sim.

Lemma m_realloc_calm {V} x0 x1 : mcalm (@m_realloc V false x0 x1).
Proof. unfold m_realloc. calm_tac. Qed.
Global Hint Resolve m_realloc_calm : calm.

Lemma m_at_sim {V} x0 x1 x2 x3 x4 x5 : rsim (@m_at V true x0 x1 x2 x3 x4 x5) (@m_at V false x0 x1 x2 x3 x4 x5).
Proof. unfold m_at. sim_tac. Qed.
Global Hint Resolve m_at_sim : sim.

Lemma m_at_calm {V} x0 x1 x2 x3 x4 x5 : calm (@m_at V false x0 x1 x2 x3 x4 x5).
Proof. unfold m_at. calm_tac. Qed.
Global Hint Resolve m_at_calm : calm.

Lemma m_data_pt_sim {V} x0 x1 x2 x3 : rsim (@m_data_pt V true x0 x1 x2 x3) (@m_data_pt V false x0 x1 x2 x3).
Proof. unfold m_data_pt. sim_tac. Qed.
Global Hint Resolve m_data_pt_sim : sim.

Lemma m_data_pt_calm {V} x0 x1 x2 x3 : calm (@m_data_pt V false x0 x1 x2 x3).
Proof. unfold m_data_pt. calm_tac. Qed.
Global Hint Resolve m_data_pt_calm : calm.

Lemma m_disp_sim {V} x0 x1 x2 : msim (@m_disp V true x0 x1 x2) (@m_disp V false x0 x1 x2).
Proof. unfold m_disp. sim_tac. Qed.
Global Hint Resolve m_disp_sim : sim.

Lemma m_disp_calm {V} x0 x1 x2 : mcalm (@m_disp V false x0 x1 x2).
Proof. unfold m_disp. calm_tac. Qed.
Global Hint Resolve m_disp_calm : calm.

Lemma m_copy_sim {V} x0 x1 x2 x3 x4 x5 x6 x7 : msim (@m_copy V true x0 x1 x2 x3 x4 x5 x6 x7) (@m_copy V false x0 x1 x2 x3 x4 x5 x6 x7).
Proof. unfold m_copy. sim_tac. Qed.
Global Hint Resolve m_copy_sim : sim.

Lemma m_copy_calm {V} x0 x1 x2 x3 x4 x5 x6 x7 : mcalm (@m_copy V false x0 x1 x2 x3 x4 x5 x6 x7).
Proof. unfold m_copy. calm_tac. Qed.
Global Hint Resolve m_copy_calm : calm.

Lemma m_copy_tag_sim {V} x0 x1 x2 x3 x4 x5 x6 x7 : msim (@m_copy_tag V true x0 x1 x2 x3 x4 x5 x6 x7) (@m_copy_tag V false x0 x1 x2 x3 x4 x5 x6 x7).
Proof. unfold m_copy_tag. sim_tac. Qed.
Global Hint Resolve m_copy_tag_sim : sim.

Lemma m_copy_tag_calm {V} x0 x1 x2 x3 x4 x5 x6 x7 : mcalm (@m_copy_tag V false x0 x1 x2 x3 x4 x5 x6 x7).
Proof. unfold m_copy_tag. calm_tac. Qed.
Global Hint Resolve m_copy_tag_calm : calm.

Lemma m_copy_fl_sim {V} x0 x1 x2 x3 x4 x5 x6 : msim (@m_copy_fl V true x0 x1 x2 x3 x4 x5 x6) (@m_copy_fl V false x0 x1 x2 x3 x4 x5 x6).
Proof. unfold m_copy_fl. sim_tac. Qed.
Global Hint Resolve m_copy_fl_sim : sim.

Lemma m_copy_fl_calm {V} x0 x1 x2 x3 x4 x5 x6 : mcalm (@m_copy_fl V false x0 x1 x2 x3 x4 x5 x6).
Proof. unfold m_copy_fl. calm_tac. Qed.
Global Hint Resolve m_copy_fl_calm : calm.

Lemma m_copy_tag_fl_sim {V} x0 x1 x2 x3 x4 x5 x6 : msim (@m_copy_tag_fl V true x0 x1 x2 x3 x4 x5 x6) (@m_copy_tag_fl V false x0 x1 x2 x3 x4 x5 x6).
Proof. unfold m_copy_tag_fl. sim_tac. Qed.
Global Hint Resolve m_copy_tag_fl_sim : sim.

Lemma m_copy_tag_fl_calm {V} x0 x1 x2 x3 x4 x5 x6 : mcalm (@m_copy_tag_fl V false x0 x1 x2 x3 x4 x5 x6).
Proof. unfold m_copy_tag_fl. calm_tac. Qed.
Global Hint Resolve m_copy_tag_fl_calm : calm.

(** ** Ranges, sizes and loops together *)

Lemma ranges_sim_1 :
  (forall x0 x1, rsim (rbegin1 true x0 x1) (rbegin1 false x0 x1)) /\
  (forall x0 x1, rsim (rsize1 true x0 x1) (rsize1 false x0 x1)) /\
  (forall x0 x1, rsim (rend1 true x0 x1) (rend1 false x0 x1)) /\
  (forall x0 x1, rsim (rlast1 true x0 x1) (rlast1 false x0 x1)) /\
  (forall x0 x1 x2, rsim (rbound1 true x0 x1 x2) (rbound1 false x0 x1 x2)) /\
  (forall x0 x1, rsim (is_overlap1 true x0 x1) (is_overlap1 false x0 x1)) /\
  (forall x0 x1, rsim (overlap1 true x0 x1) (overlap1 false x0 x1)) /\
  (forall x0 x1 x2 x3 x4, rsim (check_range1 true x0 x1 x2 x3 x4) (check_range1 false x0 x1 x2 x3 x4)) /\
  (forall x0 x1, rsim (sin1 true x0 x1) (sin1 false x0 x1)) /\
  (forall x0 x1, rsim (sn1 true x0 x1) (sn1 false x0 x1)) /\
  (forall x0 x1, rsim (sp1 true x0 x1) (sp1 false x0 x1)) /\
  (forall x0 x1 x2, rsim (sbegin1 true x0 x1 x2) (sbegin1 false x0 x1 x2)) /\
  (forall x0 x1 x2, rsim (send1 true x0 x1 x2) (send1 false x0 x1 x2)) /\
  (forall x0 x1 x2, rsim (ssize1 true x0 x1 x2) (ssize1 false x0 x1 x2)) /\
  (forall x0 x1 x2, rsim (slast1 true x0 x1 x2) (slast1 false x0 x1 x2)) /\
  (forall x0 x1 x2 x3, rsim (sbound1 true x0 x1 x2 x3) (sbound1 false x0 x1 x2 x3)) /\
  (forall x0 x1 x2 x3, rsim (mirror1 true x0 x1 x2 x3) (mirror1 false x0 x1 x2 x3)) /\
  (forall x0 x1 x2 x3, rsim (periodic1 true x0 x1 x2 x3) (periodic1 false x0 x1 x2 x3)) /\
  (forall x0 x1, rsim (srange1 true x0 x1) (srange1 false x0 x1)).
Proof. repeat match goal with |- _ /\ _ => split end; intros; auto with sim nocore. Qed.

Lemma ranges_sim_2 :
  (forall x0 x1, rsim (rbegin2 true x0 x1) (rbegin2 false x0 x1)) /\
  (forall x0 x1, rsim (rsize2 true x0 x1) (rsize2 false x0 x1)) /\
  (forall x0 x1, rsim (rend2 true x0 x1) (rend2 false x0 x1)) /\
  (forall x0 x1, rsim (rlast2 true x0 x1) (rlast2 false x0 x1)) /\
  (forall x0 x1 x2, rsim (rbound2 true x0 x1 x2) (rbound2 false x0 x1 x2)) /\
  (forall x0 x1, rsim (is_overlap2 true x0 x1) (is_overlap2 false x0 x1)) /\
  (forall x0 x1, rsim (overlap2 true x0 x1) (overlap2 false x0 x1)) /\
  (forall x0 x1 x2 x3 x4, rsim (check_range2 true x0 x1 x2 x3 x4) (check_range2 false x0 x1 x2 x3 x4)) /\
  (forall x0 x1, rsim (sin2 true x0 x1) (sin2 false x0 x1)) /\
  (forall x0 x1, rsim (sn2 true x0 x1) (sn2 false x0 x1)) /\
  (forall x0 x1, rsim (sp2 true x0 x1) (sp2 false x0 x1)) /\
  (forall x0 x1 x2, rsim (sbegin2 true x0 x1 x2) (sbegin2 false x0 x1 x2)) /\
  (forall x0 x1 x2, rsim (send2 true x0 x1 x2) (send2 false x0 x1 x2)) /\
  (forall x0 x1 x2, rsim (ssize2 true x0 x1 x2) (ssize2 false x0 x1 x2)) /\
  (forall x0 x1 x2, rsim (slast2 true x0 x1 x2) (slast2 false x0 x1 x2)) /\
  (forall x0 x1 x2 x3, rsim (sbound2 true x0 x1 x2 x3) (sbound2 false x0 x1 x2 x3)) /\
  (forall x0 x1 x2 x3, rsim (mirror2 true x0 x1 x2 x3) (mirror2 false x0 x1 x2 x3)) /\
  (forall x0 x1 x2 x3, rsim (periodic2 true x0 x1 x2 x3) (periodic2 false x0 x1 x2 x3)) /\
  (forall x0 x1 x2, rsim (srange2 true x0 x1 x2) (srange2 false x0 x1 x2)).
Proof. repeat match goal with |- _ /\ _ => split end; intros; auto with sim nocore. Qed.

Lemma ranges_sim_3 :
  (forall x0 x1, rsim (rbegin3 true x0 x1) (rbegin3 false x0 x1)) /\
  (forall x0 x1, rsim (rsize3 true x0 x1) (rsize3 false x0 x1)) /\
  (forall x0 x1, rsim (rend3 true x0 x1) (rend3 false x0 x1)) /\
  (forall x0 x1, rsim (rlast3 true x0 x1) (rlast3 false x0 x1)) /\
  (forall x0 x1 x2, rsim (rbound3 true x0 x1 x2) (rbound3 false x0 x1 x2)) /\
  (forall x0 x1, rsim (is_overlap3 true x0 x1) (is_overlap3 false x0 x1)) /\
  (forall x0 x1, rsim (overlap3 true x0 x1) (overlap3 false x0 x1)) /\
  (forall x0 x1 x2 x3 x4, rsim (check_range3 true x0 x1 x2 x3 x4) (check_range3 false x0 x1 x2 x3 x4)) /\
  (forall x0 x1, rsim (sin3 true x0 x1) (sin3 false x0 x1)) /\
  (forall x0 x1, rsim (sn3 true x0 x1) (sn3 false x0 x1)) /\
  (forall x0 x1, rsim (sp3 true x0 x1) (sp3 false x0 x1)) /\
  (forall x0 x1 x2, rsim (sbegin3 true x0 x1 x2) (sbegin3 false x0 x1 x2)) /\
  (forall x0 x1 x2, rsim (send3 true x0 x1 x2) (send3 false x0 x1 x2)) /\
  (forall x0 x1 x2, rsim (ssize3 true x0 x1 x2) (ssize3 false x0 x1 x2)) /\
  (forall x0 x1 x2, rsim (slast3 true x0 x1 x2) (slast3 false x0 x1 x2)) /\
  (forall x0 x1 x2 x3, rsim (sbound3 true x0 x1 x2 x3) (sbound3 false x0 x1 x2 x3)) /\
  (forall x0 x1 x2 x3, rsim (mirror3 true x0 x1 x2 x3) (mirror3 false x0 x1 x2 x3)) /\
  (forall x0 x1 x2 x3, rsim (periodic3 true x0 x1 x2 x3) (periodic3 false x0 x1 x2 x3)) /\
  (forall x0 x1 x2 x3, rsim (srange3 true x0 x1 x2 x3) (srange3 false x0 x1 x2 x3)).
Proof. repeat match goal with |- _ /\ _ => split end; intros; auto with sim nocore. Qed.

Lemma loops_sim_1 (S T : Type) :
  (forall x0 (f g : Z -> M S unit), (forall i0, msim (f i0) (g i0)) -> msim (PD_For_1D true x0 f) (PD_For_1D false x0 g)) /\
  (forall x0 x1 x2 (f g : Z -> Z -> M S unit), (forall i0 i1, msim (f i0 i1) (g i0 i1)) -> msim (PD_For_N_1D true x0 x1 x2 f) (PD_For_N_1D false x0 x1 x2 g)) /\
  (forall x0 x1 x2 (f g : Z -> M S T), (forall i0, msim (f i0) (g i0)) -> msim (PD_Reduce_1D true x0 x1 x2 f) (PD_Reduce_1D false x0 x1 x2 g)) /\
  (forall x0 x1 x2 x3 x4 (f g : Z -> Z -> M S T), (forall i0 i1, msim (f i0 i1) (g i0 i1)) -> msim (PD_Reduce_N_1D true x0 x1 x2 x3 x4 f) (PD_Reduce_N_1D false x0 x1 x2 x3 x4 g)).
Proof. repeat match goal with |- _ /\ _ => split end; intros; auto with sim nocore. Qed.

Lemma loops_sim_2 (S T : Type) :
  (forall x0 (f g : Z -> Z -> M S unit), (forall i0 i1, msim (f i0 i1) (g i0 i1)) -> msim (PD_For_2D true x0 f) (PD_For_2D false x0 g)) /\
  (forall x0 x1 x2 (f g : Z -> Z -> Z -> M S unit), (forall i0 i1 i2, msim (f i0 i1 i2) (g i0 i1 i2)) -> msim (PD_For_N_2D true x0 x1 x2 f) (PD_For_N_2D false x0 x1 x2 g)) /\
  (forall x0 x1 x2 (f g : Z -> Z -> M S T), (forall i0 i1, msim (f i0 i1) (g i0 i1)) -> msim (PD_Reduce_2D true x0 x1 x2 f) (PD_Reduce_2D false x0 x1 x2 g)) /\
  (forall x0 x1 x2 x3 x4 (f g : Z -> Z -> Z -> M S T), (forall i0 i1 i2, msim (f i0 i1 i2) (g i0 i1 i2)) -> msim (PD_Reduce_N_2D true x0 x1 x2 x3 x4 f) (PD_Reduce_N_2D false x0 x1 x2 x3 x4 g)) /\
  (forall x0 x1 (f g : Z -> M S unit), (forall i0, msim (f i0) (g i0)) -> msim (PD_For_1D_2 true x0 x1 f) (PD_For_1D_2 false x0 x1 g)) /\
  (forall x0 x1 x2 x3 (f g : Z -> Z -> M S unit), (forall i0 i1, msim (f i0 i1) (g i0 i1)) -> msim (PD_For_N_1D_2 true x0 x1 x2 x3 f) (PD_For_N_1D_2 false x0 x1 x2 x3 g)) /\
  (forall x0 x1 x2 x3 (f g : Z -> M S T), (forall i0, msim (f i0) (g i0)) -> msim (PD_Reduce_1D_2 true x0 x1 x2 x3 f) (PD_Reduce_1D_2 false x0 x1 x2 x3 g)) /\
  (forall x0 x1 x2 x3 x4 x5 (f g : Z -> Z -> M S T), (forall i0 i1, msim (f i0 i1) (g i0 i1)) -> msim (PD_Reduce_N_1D_2 true x0 x1 x2 x3 x4 x5 f) (PD_Reduce_N_1D_2 false x0 x1 x2 x3 x4 x5 g)).
Proof. repeat match goal with |- _ /\ _ => split end; intros; auto with sim nocore. Qed.

Lemma loops_sim_3 (S T : Type) :
  (forall x0 (f g : Z -> Z -> Z -> M S unit), (forall i0 i1 i2, msim (f i0 i1 i2) (g i0 i1 i2)) -> msim (PD_For_3D true x0 f) (PD_For_3D false x0 g)) /\
  (forall x0 x1 x2 (f g : Z -> Z -> Z -> Z -> M S unit), (forall i0 i1 i2 i3, msim (f i0 i1 i2 i3) (g i0 i1 i2 i3)) -> msim (PD_For_N_3D true x0 x1 x2 f) (PD_For_N_3D false x0 x1 x2 g)) /\
  (forall x0 x1 x2 (f g : Z -> Z -> Z -> M S T), (forall i0 i1 i2, msim (f i0 i1 i2) (g i0 i1 i2)) -> msim (PD_Reduce_3D true x0 x1 x2 f) (PD_Reduce_3D false x0 x1 x2 g)) /\
  (forall x0 x1 x2 x3 x4 (f g : Z -> Z -> Z -> Z -> M S T), (forall i0 i1 i2 i3, msim (f i0 i1 i2 i3) (g i0 i1 i2 i3)) -> msim (PD_Reduce_N_3D true x0 x1 x2 x3 x4 f) (PD_Reduce_N_3D false x0 x1 x2 x3 x4 g)) /\
  (forall x0 x1 x2 (f g : Z -> Z -> M S unit), (forall i0 i1, msim (f i0 i1) (g i0 i1)) -> msim (PD_For_2D_3 true x0 x1 x2 f) (PD_For_2D_3 false x0 x1 x2 g)) /\
  (forall x0 x1 x2 x3 x4 (f g : Z -> Z -> Z -> M S unit), (forall i0 i1 i2, msim (f i0 i1 i2) (g i0 i1 i2)) -> msim (PD_For_N_2D_3 true x0 x1 x2 x3 x4 f) (PD_For_N_2D_3 false x0 x1 x2 x3 x4 g)) /\
  (forall x0 x1 x2 x3 x4 (f g : Z -> Z -> M S T), (forall i0 i1, msim (f i0 i1) (g i0 i1)) -> msim (PD_Reduce_2D_3 true x0 x1 x2 x3 x4 f) (PD_Reduce_2D_3 false x0 x1 x2 x3 x4 g)) /\
  (forall x0 x1 x2 x3 x4 x5 x6 (f g : Z -> Z -> Z -> M S T), (forall i0 i1 i2, msim (f i0 i1 i2) (g i0 i1 i2)) -> msim (PD_Reduce_N_2D_3 true x0 x1 x2 x3 x4 x5 x6 f) (PD_Reduce_N_2D_3 false x0 x1 x2 x3 x4 x5 x6 g)) /\
  (forall x0 x1 (f g : Z -> M S unit), (forall i0, msim (f i0) (g i0)) -> msim (PD_For_1D_3 true x0 x1 f) (PD_For_1D_3 false x0 x1 g)) /\
  (forall x0 x1 x2 x3 (f g : Z -> Z -> M S unit), (forall i0 i1, msim (f i0 i1) (g i0 i1)) -> msim (PD_For_N_1D_3 true x0 x1 x2 x3 f) (PD_For_N_1D_3 false x0 x1 x2 x3 g)) /\
  (forall x0 x1 x2 x3 (f g : Z -> M S T), (forall i0, msim (f i0) (g i0)) -> msim (PD_Reduce_1D_3 true x0 x1 x2 x3 f) (PD_Reduce_1D_3 false x0 x1 x2 x3 g)) /\
  (forall x0 x1 x2 x3 x4 x5 (f g : Z -> Z -> M S T), (forall i0 i1, msim (f i0 i1) (g i0 i1)) -> msim (PD_Reduce_N_1D_3 true x0 x1 x2 x3 x4 x5 f) (PD_Reduce_N_1D_3 false x0 x1 x2 x3 x4 x5 g)).
Proof. repeat match goal with |- _ /\ _ => split end; intros; auto with sim nocore. Qed.

(** ** Programs *)

Section Programs.
Context {V : Type}.
Implicit Types (w : world V).

Definition osim (x y : option (world V * result V)) : Prop :=
  forall w' r, x = Some (w', r) -> unchecked_result r -> y = Some (w', r).

Lemma osim_refl x : osim x x.
Proof. intros w' r H _. exact H. Qed.

Lemma construct_sim w k c c' : msim c c' -> osim (construct w k c) (construct w k c').
Proof.
  intros H w' r. unfold construct. specialize (H (heap w, m_blank k)).
  destruct (c (heap w, m_blank k)) as [[m o] u|[m o] e|]; intros E U; try discriminate.
  - rewrite H. exact E.
  - injection E as <- <-. cbn in U. destruct H as [H|H]; [congruence|rewrite H; reflexivity].
Qed.

Lemma on_obj_sim w a (f g : kind -> M (mem V * obj) unit) : (forall k, msim (f k) (g k)) ->
  osim (on_obj w a f) (on_obj w a g).
Proof.
  intros H w' r. unfold on_obj. destruct (find w a) as [[k o]|]; [|discriminate].
  specialize (H k (heap w, o)).
  destruct (f k (heap w, o)) as [[m o'] u|[m o'] e|]; intros E U; try discriminate.
  - rewrite H. exact E.
  - injection E as <- <-. cbn in U. destruct H as [H|H]; [congruence|rewrite H; reflexivity].
Qed.

Lemma on_mem_sim {A} w (f g : M (mem V) A) h : msim f g -> osim (on_mem w f h) (on_mem w g h).
Proof.
  intros H w' r. unfold on_mem. specialize (H (heap w)).
  destruct (f (heap w)) as [m u|m e|]; intros E U; try discriminate.
  - rewrite H. exact E.
  - injection E as <- <-. cbn in U. destruct H as [H|H]; [congruence|rewrite H; reflexivity].
Qed.

Lemma on_two_sim w d s (f g : kind -> obj -> obj -> bool -> M (mem V) unit) :
  (forall k a b c, msim (f k a b c) (g k a b c)) -> osim (on_two w d s f) (on_two w d s g).
Proof.
  intros H w' r. unfold on_two. destruct (find w d) as [[k o]|], (find w s) as [[k' o']|]; try discriminate.
  destruct (kind_eqb k k'); [|discriminate]. apply on_mem_sim. apply H.
Qed.

Lemma read_plt_sim (of_float of_double : bytes -> option V) k fs root log zone name nn o :
  msim (m_read_plt true of_float of_double k fs root log zone name nn o)
       (m_read_plt false of_float of_double k fs root log zone name nn o).
Proof.
  destruct k, o; cbn [m_read_plt]; try apply msim_refl; unfold read_plt1, read_plt2, read_plt3;
    (apply msim_bind; [apply msim_lift, check_n_sim|intro; apply msim_refl]).
Qed.

Lemma step_sim w c w' r : step true w c = Some (w', r) -> unchecked_result r ->
  step false w c = Some (w', r).
Proof.
  revert w' r. change (osim (step true w c) (step false w c)).
  destruct c; unfold step.
  - apply osim_refl.
  - apply construct_sim. auto with sim nocore.
  - apply on_obj_sim. intro. auto with sim nocore.
  - apply on_obj_sim. intro. auto with sim nocore.
  - apply osim_refl.
  - apply osim_refl.
  - apply osim_refl.
  - destruct (find w a) as [[k o]|]; [|apply osim_refl]. apply on_mem_sim. sim_tac.
  - destruct (find w a) as [[k o]|]; [|apply osim_refl]. apply on_mem_sim. sim_tac.
  - destruct (find w a) as [[k o]|]; [|apply osim_refl]. apply on_mem_sim. unfold elem. sim_tac.
  - destruct (find w a) as [[k o]|]; [|apply osim_refl]. apply on_mem_sim. unfold elem. sim_tac.
  - apply on_two_sim. intros. auto with sim nocore.
  - apply on_two_sim. intros. auto with sim nocore.
  - apply on_two_sim. intros. auto with sim nocore.
  - apply on_two_sim. intros. auto with sim nocore.
  - destruct (find w a) as [[k o]|]; [|apply osim_refl]. apply on_mem_sim. intro m.
    pose proof (read_plt_sim of_float of_double k fs root log zone name nn o (m, 0)) as H.
    destruct (m_read_plt true _ _ _ _ _ _ _ _ _ _ _) as [[m' l] u|[m' l] e|]; [now rewrite H| |exact I].
    destruct H as [H|H]; [now left|right; now rewrite H].
Qed.

Lemma exec_sim w h w' rs : exec true w h = Some (w', rs) -> Forall unchecked_result rs ->
  exec false w h = Some (w', rs).
Proof.
  revert w w' rs. induction h as [|c h IH]; intros w w' rs E F; [exact E|].
  cbn [exec] in *. destruct (step true w c) as [[w1 r]|] eqn:S; [|discriminate].
  destruct (exec true w1 h) as [[w2 rs']|] eqn:E'; [|discriminate].
  injection E as <- <-. apply Forall_cons_iff in F as [F1 F2].
  rewrite (step_sim _ _ _ _ S F1), (IH _ _ _ E' F2). reflexivity.
Qed.

Definition ocalm (x : option (world V * result V)) : Prop :=
  forall w' r, x = Some (w', r) -> unchecked_result r.

Lemma construct_calm w k c : mcalm c -> ocalm (construct w k c).
Proof.
  intros H w' r. unfold construct. specialize (H (heap w, m_blank k)).
  destruct (c (heap w, m_blank k)) as [[m o] u|[m o] e|]; intros E; try discriminate;
    injection E as <- <-; cbn; auto.
Qed.

Lemma on_obj_calm w a (f : kind -> M (mem V * obj) unit) : (forall k, mcalm (f k)) -> ocalm (on_obj w a f).
Proof.
  intros H w' r. unfold on_obj. destruct (find w a) as [[k o]|]; [|discriminate].
  specialize (H k (heap w, o)).
  destruct (f k (heap w, o)) as [[m o'] u|[m o'] e|]; intros E; try discriminate;
    injection E as <- <-; cbn; auto.
Qed.

Lemma on_mem_calm {A} w (f : M (mem V) A) h : (forall a, unchecked_result (h a)) -> mcalm f ->
  ocalm (on_mem w f h).
Proof.
  intros Hh H w' r. unfold on_mem. specialize (H (heap w)).
  destruct (f (heap w)) as [m u|m e|]; intros E; try discriminate; injection E as <- <-; cbn; auto.
Qed.

Lemma on_two_calm w d s (f : kind -> obj -> obj -> bool -> M (mem V) unit) :
  (forall k a b c, mcalm (f k a b c)) -> ocalm (on_two w d s f).
Proof.
  intros H w' r. unfold on_two. destruct (find w d) as [[k o]|], (find w s) as [[k' o']|]; try discriminate.
  destruct (kind_eqb k k'); [|discriminate]. apply on_mem_calm; [intro; exact I|apply H].
Qed.

Lemma m_ctor_calm k : mcalm (m_ctor (V := V) k).
Proof. unfold m_ctor. destruct k; calm_tac. Qed.
Lemma m_clear_calm k : mcalm (m_clear (V := V) k).
Proof. unfold m_clear. destruct k; calm_tac. Qed.

Lemma buf_new_calm n : mcalm (buf_new (V := V) n).
Proof. intros [m l]. unfold buf_new. now destruct (_ || _). Qed.

Lemma read_var_calm (of_float of_double : bytes -> option V) fs root log z name cnt loop :
  (forall t, (forall i, calm (t i)) -> mcalm (loop t)) -> mcalm (read_var of_float of_double fs root log z name cnt loop).
Proof.
  intros H. assert (T : forall wd conv buf i, calm (temp_at (V := V) wd conv buf i)).
  { intros. unfold temp_at. calm_tac. }
  pose proof buf_new_calm. unfold read_var, open_at, read_bytes, by_type, buf_delete.
  repeat (cbn beta iota zeta; first [ apply H, T | solve [ auto ] | progress calm_tac ]).
Qed.

Lemma put_temp_calm lval (x : res V) : (forall m, calm (lval m)) -> calm x -> mcalm (put_temp lval x).
Proof. intros H1 H2. unfold put_temp. calm_tac; auto. Qed.

Lemma read_plt_calm (of_float of_double : bytes -> option V) k fs root log zone name nn o :
  mcalm (m_read_plt false of_float of_double k fs root log zone name nn o).
Proof.
  destruct k, o; cbn [m_read_plt]; try exact (fun _ => I); unfold read_plt1, read_plt2, read_plt3, log_zone, n_file, v3_get;
    calm_tac; apply read_var_calm; intros t Ht; calm_tac; apply put_temp_calm; auto with calm nocore.
Qed.

Lemma step_calm w c w' r : step false w c = Some (w', r) -> unchecked_result r.
Proof.
  revert w' r. change (ocalm (step false w c)).
  destruct c; unfold step.
  - apply construct_calm, m_ctor_calm.
  - apply construct_calm. auto with calm nocore.
  - apply on_obj_calm. intro. auto with calm nocore.
  - apply on_obj_calm. intro. auto with calm nocore.
  - apply on_obj_calm. intro. apply m_clear_calm.
  - intros w' r. destruct (on_obj w a m_dtor) as [[w1 []]|]; try discriminate. intro E. injection E as <- <-. exact I.
  - intros w' r. destruct (find w a) as [[k o]|]; [|discriminate]. intro E. injection E as <- <-. exact I.
  - destruct (find w a) as [[k o]|]; [|discriminate]. apply on_mem_calm; [intro; exact I|]. calm_tac.
  - destruct (find w a) as [[k o]|]; [|discriminate]. apply on_mem_calm; [intro; exact I|]. calm_tac.
  - destruct (find w a) as [[k o]|]; [|discriminate]. apply on_mem_calm; [intro; exact I|]. unfold elem. calm_tac.
  - destruct (find w a) as [[k o]|]; [|discriminate]. apply on_mem_calm; [intro; exact I|]. unfold elem. calm_tac.
  - apply on_two_calm. intros. auto with calm nocore.
  - apply on_two_calm. intros. auto with calm nocore.
  - apply on_two_calm. intros. auto with calm nocore.
  - apply on_two_calm. intros. auto with calm nocore.
  - destruct (find w a) as [[k o]|]; [|discriminate]. apply on_mem_calm; [intro; exact I|]. intro m.
    pose proof (read_plt_calm of_float of_double k fs root log zone name nn o (m, 0)) as H.
    now destruct (m_read_plt false _ _ _ _ _ _ _ _ _ _ _) as [[m' l] u|[m' l] e|].
Qed.

Lemma exec_calm w h w' rs : exec false w h = Some (w', rs) -> Forall unchecked_result rs.
Proof.
  revert w w' rs. induction h as [|c h IH]; intros w w' rs E.
  - injection E as <- <-. constructor.
  - cbn [exec] in *. destruct (step false w c) as [[w1 r]|] eqn:S; [|discriminate].
    destruct (exec false w1 h) as [[w2 rs']|] eqn:E'; [|discriminate].
    injection E as <- <-. constructor; [exact (step_calm _ _ _ _ S)|exact (IH _ _ _ E')].
Qed.

Lemma exec0_sim N (o o' : pd0 (V := V)) h rs :
  exec0 N true o h = Some (o', rs) -> Forall unchecked_result0 rs -> exec0 N false o h = Some (o', rs).
Proof.
  revert o o' rs. induction h as [|c h IH]; intros o o' rs E F; [exact E|].
  cbn [exec0] in *. destruct (step0 N true o c) as [[w1 r]|] eqn:S; [|discriminate].
  destruct (exec0 N true w1 h) as [[w2 rs']|] eqn:E'; [|discriminate].
  injection E as <- <-. apply Forall_cons_iff in F as [F1 F2].
  assert (step0 N false o c = Some (w1, r)) as ->; [|rewrite (IH _ _ _ E' F2); reflexivity].
  assert (C : forall n, rsim (check_n0 N true n) (check_n0 N false n)).
  { intro n. unfold check_n0. apply rsim_checks. checks_tac. }
  destruct c as [n|n v]; cbn [step0] in *.
  - assert (R : rsim (read0 N true o n) (read0 N false o n)).
    { unfold read0. apply rsim_bind; [apply C|intro; apply rsim_refl]. }
    destruct (read0 N true o n) as [x|e|]; unfold rsim in R; cbn iota in R.
    + rewrite R. exact S.
    + injection S as <- <-. cbn in F1. destruct R as [R|R]; [congruence|rewrite R; reflexivity].
    + discriminate.
  - assert (R : rsim (write0 N true o n v) (write0 N false o n v)).
    { unfold write0. apply rsim_bind; [apply C|intro; apply rsim_refl]. }
    destruct (write0 N true o n v) as [x|e|]; unfold rsim in R; cbn iota in R.
    + rewrite R. exact S.
    + injection S as <- <-. cbn in F1. destruct R as [R|R]; [congruence|rewrite R; reflexivity].
    + discriminate.
Qed.

End Programs.

Lemma call_modes {V : Type} (w w' : world V) c r : step true w c = Some (w', r) -> unchecked_result r ->
  step false w c = Some (w', r).
Proof. exact (step_sim w c w' r). Qed.

Lemma history_modes {V : Type} (w w' : world V) h rs :
  exec true w h = Some (w', rs) -> Forall unchecked_result rs -> exec false w h = Some (w', rs).
Proof. exact (exec_sim w h w' rs). Qed.

Lemma history0_modes {V : Type} N (o o' : pd0 (V := V)) h rs :
  exec0 N true o h = Some (o', rs) -> Forall unchecked_result0 rs -> exec0 N false o h = Some (o', rs).
Proof. exact (exec0_sim N o o' h rs). Qed.

Lemma disp_modes {V : Type} k (m : mem V) o : msim (m_disp true k m o) (m_disp false k m o).
Proof. exact (m_disp_sim k m o). Qed.

Lemma unchecked_silent {V : Type} (w w' : world V) h rs :
  exec false w h = Some (w', rs) -> Forall unchecked_result rs.
Proof. exact (exec_calm w h w' rs). Qed.
