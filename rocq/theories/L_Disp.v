(** disp_data. *)

From Coq Require Import ZArith String List Bool Lia.
From Verif Require Import Base M_Flags M_Loop M_RS1 M_RS2 M_RS3 M_Heap M_PD1 M_PD2 M_PD3 M_World
  Spec Spec_Loop Spec_Array Spec_Hist Spec_Reach
  L_Base L_RS L_Range L_Loop L_Heap L_Lin L_Rep L_PD1 L_PD2 L_PD3 L_Kind L_Copy L_World L_Access L_Life L_Copies.
Import ListNotations.
Open Scope Z_scope.
Open Scope list_scope.

Section Disp.
Context {V : Type}.
Implicit Types (w : world V) (aw : aworld V) (h : list (op V)) (m : mem V).

(** The loops of disp_data over a cell function. *)
Definition show (c : Z -> list Z -> res (cell V)) (n : Z) (q : list Z) : M (list (tok V)) unit :=
  put_cell (c n q) ;;; put (TStr ", ").

Definition disp_run (k : kind) (B : box) (c : Z -> list Z -> res (cell V)) : M (list (tok V)) unit :=
  match k, B with
  | K1 N _, [f] => run (ints f) (fun x => run (zrange 0 N) (fun n => show c n [x]) ;;; put TEndl)
  | K2 N _ _, [f; g] =>
      run (zrange 0 N) (fun n => put (TStr "N = ") ;;; put (TInt n) ;;; put TEndl ;;;
        run (ints f) (fun x => run (ints g) (fun y => show c n [x; y]) ;;; put TEndl) ;;; put TEndl)
  | K3 N _ _ _, [f; g; h] =>
      run (zrange 0 N) (fun n => put (TStr "N = ") ;;; put (TInt n) ;;; put TEndl ;;;
        run (ints f) (fun x => put (TStr "i = ") ;;; put (TInt x) ;;; put TEndl ;;;
          run (ints g) (fun y => run (ints h) (fun z => show c n [x; y; z]) ;;; put TEndl)) ;;; put TEndl)
  | _, _ => undef
  end.

Definition cells m (o : obj) (n : Z) (q : list Z) : res (cell V) := let* p := m_lval m o n q in load m p.

Lemma bind_ext {S A B} (x x' : M S A) (f f' : A -> M S B) s :
  x s = x' s -> (forall a s, f a s = f' a s) -> bind x f s = bind x' f' s.
Proof. intros E H. unfold bind. rewrite E. destruct (x' s); auto. Qed.

Lemma seq_ext {S A} (x x' : M S unit) (f f' : M S A) s :
  (forall s, x s = x' s) -> (forall s, f s = f' s) -> (x ;;; f) s = (x' ;;; f') s.
Proof. intros E H. apply bind_ext; auto. Qed.

Lemma loop_dim l n i p :
  shape_ok (n, i, p) -> iadd (i + p) (loc_val l) = Ok (i + p + loc_val l) /\ - n <= i + p + loc_val l.
Proof.
  unfold shape_ok. intros H. pose proof (loc_val_range l). split; [|lia].
  unfold iadd. ckgo. reflexivity.
Qed.

Lemma bind_lift_ok {S A B} (r : res A) (x : A) (f : A -> M S B) s : r = Ok x -> bind (lift r) f s = f x s.
Proof. intros ->. reflexivity. Qed.

Lemma for_int_ext {S} b e (f g : Z -> M S unit) s :
  b <= e -> (forall x s, f x s = g x s) -> for_int b e f s = run (zrange b e) g s.
Proof. intros Hb H. rewrite for_int_run by assumption. apply run_ext. auto. Qed.

Lemma for_uint_ext' {S} N (f g : Z -> M S unit) s :
  0 <= N < UINT_MOD -> (forall x s, f x s = g x s) -> for_uint 0 N f s = run (zrange 0 N) g s.
Proof. intros Hb H. rewrite for_uint_run by lia. apply run_ext. auto. Qed.

Lemma disp_eq chk k m o out :
  kok k -> class_ok k o -> Forall shape_ok (m_size o) ->
  m_disp chk k m o out = disp_run k (slot_box (m_size o) (k_locs k)) (cells m o) out.
Proof.
  intros HN Hc Hs. assert (Hf : Forall dim_fits (m_size o)) by (eapply Forall_impl; [apply shape_ok_fits|exact Hs]).
  unfold kok in HN. destruct k as [N l0|N l0 l1|N l0 l1 l2], o as [o|o|o]; try contradiction; cbn [k_N m_size m_disp k_locs] in *.
  - destruct o as [[i n p] dt pt]. unfold shape1 in *. cbn [pd1_size s1_n s1_in s1_p] in *.
    apply Forall_inv in Hs, Hf. destruct (dim_facts1 chk n i p Hf) as (_ & _ & _ & F). destruct (F RALL) as (F1 & F2 & _).
    destruct (loop_dim l0 n i p Hs) as [L1 L2]. cbn [region fst snd] in F1, F2.
    unfold disp_data1. cbn [pd1_size]. rewrite (bind_lift_ok _ _ _ _ F1).
    rewrite (bind_lift_ok _ (i + p + loc_val l0)) by (rewrite F2; exact L1).
    unfold slot_box. cbn [combine map slots disp_run]. unfold ints. cbn [fst snd].
    apply for_int_ext; [assumption|]. intros x t. apply seq_ext; [|reflexivity]. intros t'.
    apply for_uint_ext'; [lia|]. intros y t1. reflexivity.
  - pose proof (dim_facts2 chk (pd2_size o) 0 ltac:(lia) Hf) as F0. pose proof (dim_facts2 chk (pd2_size o) 1 ltac:(lia) Hf) as F1.
    unfold dimof2 in F0, F1. cbn [Z.to_nat Pos.to_nat Pos.iter_op Nat.add] in F0, F1.
    unfold disp_data2. unfold shape2 in *. cbn [nth] in F0, F1. set (sz := pd2_size o) in *.
    destruct F0 as (_ & _ & _ & F0). destruct (F0 RALL) as (A1 & A2 & _). destruct F1 as (_ & _ & _ & F1). destruct (F1 RALL) as (B1 & B2 & _).
    cbn [region fst snd] in A1, A2, B1, B2.
    inversion Hs as [|? ? S0 Hs']; subst. apply Forall_inv in Hs'.
    destruct (loop_dim l0 _ _ _ S0) as [L1 L2]. destruct (loop_dim l1 _ _ _ Hs') as [L3 L4].
    rewrite (bind_lift_ok _ _ _ _ A1). erewrite bind_lift_ok by (rewrite A2; exact L1).
    rewrite (bind_lift_ok _ _ _ _ B1). erewrite bind_lift_ok by (rewrite B2; exact L3).
    unfold slot_box. cbn [combine map slots disp_run]. unfold ints. cbn [fst snd].
    apply for_uint_ext'; [lia|]. intros n t.
    do 3 (apply seq_ext; [reflexivity|intros]). apply seq_ext; [|reflexivity]. intros.
    apply for_int_ext; [assumption|]. intros. apply seq_ext; [|reflexivity]. intros.
    apply for_int_ext; [assumption|]. intros. reflexivity.
  - pose proof (dim_facts3 chk (pd3_size o) 0 ltac:(lia) Hf) as F0. pose proof (dim_facts3 chk (pd3_size o) 1 ltac:(lia) Hf) as F1.
    pose proof (dim_facts3 chk (pd3_size o) 2 ltac:(lia) Hf) as F2.
    unfold dimof3 in F0, F1, F2. cbn [Z.to_nat Pos.to_nat Pos.iter_op Nat.add] in F0, F1, F2.
    unfold disp_data3. unfold shape3 in *. cbn [nth] in F0, F1, F2. set (sz := pd3_size o) in *.
    destruct F0 as (_ & _ & _ & F0). destruct (F0 RALL) as (A1 & A2 & _). destruct F1 as (_ & _ & _ & F1). destruct (F1 RALL) as (B1 & B2 & _).
    destruct F2 as (_ & _ & _ & F2). destruct (F2 RALL) as (C1 & C2 & _).
    cbn [region fst snd] in A1, A2, B1, B2, C1, C2.
    inversion Hs as [|? ? S0 Hs']; subst. inversion Hs' as [|? ? S1 Hs'']; subst. apply Forall_inv in Hs''.
    destruct (loop_dim l0 _ _ _ S0) as [L1 L2]. destruct (loop_dim l1 _ _ _ S1) as [L3 L4]. destruct (loop_dim l2 _ _ _ Hs'') as [L5 L6].
    rewrite (bind_lift_ok _ _ _ _ A1). erewrite bind_lift_ok by (rewrite A2; exact L1).
    rewrite (bind_lift_ok _ _ _ _ B1). erewrite bind_lift_ok by (rewrite B2; exact L3).
    rewrite (bind_lift_ok _ _ _ _ C1). erewrite bind_lift_ok by (rewrite C2; exact L5).
    unfold slot_box. cbn [combine map slots disp_run]. unfold ints. cbn [fst snd].
    apply for_uint_ext'; [lia|]. intros n t.
    do 3 (apply seq_ext; [reflexivity|intros]). apply seq_ext; [|reflexivity]. intros.
    apply for_int_ext; [assumption|]. intros. do 3 (apply seq_ext; [reflexivity|intros]).
    apply for_int_ext; [assumption|]. intros. apply seq_ext; [|reflexivity]. intros.
    apply for_int_ext; [assumption|]. intros. reflexivity.
Qed.

(** Computations that only append text. *)
Definition emits (f : M (list (tok V)) unit) (t : list (tok V)) : Prop := forall out, f out = Ret (out ++ t) tt.

Lemma emits_put t : emits (put t) [t].
Proof. intros out. reflexivity. Qed.

Lemma emits_seq f g t u : emits f t -> emits g u -> emits (f ;;; g) (t ++ u).
Proof. intros H1 H2 out. unfold bind. rewrite H1, H2, app_assoc. reflexivity. Qed.

Lemma emits_run {A} (l : list A) f t : (forall x, In x l -> emits (f x) (t x)) -> emits (run l f) (flat_map t l).
Proof.
  induction l as [|x l IH]; intros H; cbn [run flat_map].
  - intros out. now rewrite app_nil_r.
  - apply emits_seq; [apply H; now left|apply IH; intros; apply H; now right].
Qed.

Lemma emits_show c n q val : c n q = Ok (CVal (val n q)) -> emits (show c n q) (listed val n q).
Proof. intros E out. unfold show, put_cell, bind, put, listed. rewrite E. cbn [lift]. rewrite <- app_assoc. reflexivity. Qed.

Lemma emits_cons f t u x : emits f [x] -> emits t u -> emits (f ;;; t) (x :: u).
Proof. intros. now apply (emits_seq f t [x] u). Qed.

Lemma disp_emits k B c val :
  length B = length (k_locs k) ->
  (forall n q, 0 <= n < k_N k -> in_box B q -> c n q = Ok (CVal (val n q))) ->
  emits (disp_run k B c) (display val k B).
Proof.
  intros HL H. destruct k as [N l0|N l0 l1|N l0 l1 l2], B as [|f [|g [|h [|? ?]]]]; try discriminate; cbn [disp_run display k_N] in *.
  - apply emits_run. intros x Hx. apply in_zrange in Hx. apply emits_seq; [|apply emits_put].
    apply emits_run. intros n Hn. apply in_zrange in Hn. apply emits_show, H; [assumption|]. repeat constructor; lia.
  - apply emits_run. intros n Hn. apply in_zrange in Hn. do 3 (apply emits_cons; [apply emits_put|]). cbn [app].
    apply emits_seq; [|apply emits_put].
    apply emits_run. intros x Hx. apply in_zrange in Hx. apply emits_seq; [|apply emits_put].
    apply emits_run. intros y Hy. apply in_zrange in Hy. apply emits_show, H; [assumption|]. repeat constructor; lia.
  - apply emits_run. intros n Hn. apply in_zrange in Hn. do 3 (apply emits_cons; [apply emits_put|]). cbn [app].
    apply emits_seq; [|apply emits_put].
    apply emits_run. intros x Hx. apply in_zrange in Hx. do 3 (apply emits_cons; [apply emits_put|]). cbn [app].
    apply emits_run. intros y Hy. apply in_zrange in Hy. apply emits_seq; [|apply emits_put].
    apply emits_run. intros z Hz. apply in_zrange in Hz. apply emits_show, H; [assumption|]. repeat constructor; lia.
Qed.

(** Computations that append text or are undefined. *)
Definition grows (f : M (list (tok V)) unit) : Prop := forall out, f out = Undef \/ exists out', f out = Ret out' tt.
Definition dead (f : M (list (tok V)) unit) : Prop := forall out, f out = Undef.

Lemma grows_put t : grows (put t).
Proof. intros out. right. eexists. reflexivity. Qed.
Lemma grows_seq f g : grows f -> grows g -> grows (f ;;; g).
Proof.
  intros H1 H2 out. unfold bind. destruct (H1 out) as [E|[o E]]; rewrite E; [now left|]. apply H2.
Qed.
Lemma grows_run {A} (l : list A) f : (forall x, grows (f x)) -> grows (run l f).
Proof.
  intros H. induction l as [|x l IH]; cbn [run]; [|now apply grows_seq].
  intros out. right. eexists. reflexivity.
Qed.
Lemma dead_l f g : dead f -> dead (f ;;; g).
Proof. intros H out. unfold bind. now rewrite H. Qed.
Lemma dead_r f g : grows f -> dead g -> dead (f ;;; g).
Proof. intros H1 H2 out. unfold bind. destruct (H1 out) as [E|[o E]]; rewrite E; [reflexivity|]. apply H2. Qed.
Lemma dead_run {A} (l : list A) x f : In x l -> (forall x, grows (f x)) -> dead (f x) -> dead (run l f).
Proof.
  intros Hx Hg Hd. induction l as [|y l IH]; [destruct Hx|]. cbn [run].
  destruct Hx as [->|Hx]; [now apply dead_l|]. apply dead_r; auto.
Qed.

(** No exception comes from an element. *)
Definition calm (c : Z -> list Z -> res (cell V)) : Prop := forall n q e, c n q <> Err e.

Lemma grows_show c n q : calm c -> grows (show c n q).
Proof.
  intros Hc out. unfold show, put_cell, bind. destruct (c n q) as [[|v|p]|e|] eqn:E; cbn; auto; [|destruct (Hc _ _ _ E)].
  right. eexists. reflexivity.
Qed.

Lemma dead_show c n q : (forall v, c n q <> Ok (CVal v)) -> calm c -> dead (show c n q).
Proof.
  intros H Hc out. unfold show, put_cell, bind. destruct (c n q) as [[|v|p]|e|] eqn:E; cbn; auto; [|destruct (Hc _ _ _ E)].
  destruct (H v); reflexivity.
Qed.

Lemma disp_dead k B c n q :
  length B = length (k_locs k) -> calm c ->
  0 <= n < k_N k -> in_box B q -> (forall v, c n q <> Ok (CVal v)) -> dead (disp_run k B c).
Proof.
  intros HL Hc Hn Hq Hv. pose proof (dead_show c n q Hv Hc) as HD.
  destruct k as [N l0|N l0 l1|N l0 l1 l2], B as [|f [|g [|h [|? ?]]]]; try discriminate; cbn [disp_run k_N] in *.
  - inversion Hq as [|? x ? ? Hx H1]; subst. inversion H1; subst.
    apply dead_run with x; [apply in_zrange; lia| |].
    + intros. apply grows_seq; [|apply grows_put]. apply grows_run. intros. now apply grows_show.
    + apply dead_l. apply dead_run with n; [apply in_zrange; lia| |assumption]. intros. now apply grows_show.
  - inversion Hq as [|? x ? ? Hx H1]; subst. inversion H1 as [|? y ? ? Hy H2]; subst. inversion H2; subst.
    apply dead_run with n; [apply in_zrange; lia| |].
    + intros. repeat first [now apply grows_show|apply grows_seq|apply grows_put|apply grows_run; intros].
    + do 3 (apply dead_r; [apply grows_put|]). apply dead_l. apply dead_run with x; [apply in_zrange; lia| |].
      * intros. repeat first [now apply grows_show|apply grows_seq|apply grows_put|apply grows_run; intros].
      * apply dead_l. apply dead_run with y; [apply in_zrange; lia| |assumption]. intros. now apply grows_show.
  - inversion Hq as [|? x ? ? Hx H1]; subst. inversion H1 as [|? y ? ? Hy H2]; subst. inversion H2 as [|? z ? ? Hz H3]; subst. inversion H3; subst.
    apply dead_run with n; [apply in_zrange; lia| |].
    + intros. repeat first [now apply grows_show|apply grows_seq|apply grows_put|apply grows_run; intros].
    + do 3 (apply dead_r; [apply grows_put|]). apply dead_l. apply dead_run with x; [apply in_zrange; lia| |].
      * intros. repeat first [now apply grows_show|apply grows_seq|apply grows_put|apply grows_run; intros].
      * do 3 (apply dead_r; [apply grows_put|]). apply dead_run with y; [apply in_zrange; lia| |].
        -- intros. repeat first [now apply grows_show|apply grows_seq|apply grows_put|apply grows_run; intros].
        -- apply dead_l. apply dead_run with z; [apply in_zrange; lia| |assumption]. intros. now apply grows_show.
Qed.

Lemma calm_cells m o : calm (cells m o).
Proof.
  assert (P : forall p x e, pidx m p x <> Err e).
  { intros p x e. unfold pidx. destruct p; try discriminate. destruct (block m b); [|discriminate]. destruct (_ && _); discriminate. }
  assert (L : forall p e, load m p <> Err e).
  { intros p e. unfold load. destruct p; try discriminate. destruct (block m b); [|discriminate]. destruct (_ <=? _); [|discriminate].
    destruct (nth_error _ _); discriminate. }
  assert (LP : forall p e, load_ptr m p <> Err e).
  { intros p e. unfold load_ptr. specialize (L p). destruct (load m p) as [[]|e'|]; cbn [rbind]; try discriminate.
    intros E. injection E as ->. now apply (L e). }
  assert (G : forall l x e, arr_get (A := ptr) l x <> Err e).
  { intros l x e. unfold arr_get. destruct (0 <=? x); [|discriminate]. destruct (nth_error _ _); discriminate. }
  assert (B : forall {X Y} (r : res X) (f : X -> res Y), (forall e, r <> Err e) -> (forall x e, f x <> Err e) -> forall e, rbind r f <> Err e).
  { intros X Y r f H1 H2 e. destruct r as [x|e'|]; cbn [rbind]; [apply H2| |discriminate]. intros E. injection E as ->. now apply (H1 e). }
  assert (M : forall n q e, m_lval m o n q <> Err e).
  { intros n q e. unfold m_lval, lval1, lval2, lval3.
    destruct o as [o|o|o], q as [|? [|? [|? [|? ?]]]]; try discriminate; repeat (apply B; [auto|intros]); auto. }
  intros n q e. unfold cells. apply B; auto.
Qed.

Lemma reads_cells w k o gs f bs n q v :
  kok k -> rep k (heap w) o (ALive gs f) bs -> reads w k o n q v -> cells (heap w) o n q = Ok (cell_of v).
Proof.
  intros HN Hr H. apply (reads_rep w k o gs f bs n q v HN Hr) in H. destruct H as (Hn & Hq & ->).
  destruct Hr as (_ & _ & HL & HH). unfold cells. rewrite (lval_ok k (heap w) o gs bs n q HN HL Hn Hq). cbn [rbind].
  now apply holds_load with (N := k_N k).
Qed.

Lemma slot_box_len k o : class_ok k o -> length (slot_box (m_size o) (k_locs k)) = length (k_locs k).
Proof. intros H. unfold slot_box. rewrite map_length, combine_length, (m_size_length k o H). apply Nat.min_id. Qed.

Lemma disp_text F h w aw a k o val chk out :
  after F h w aw -> healthy aw a -> find w a = Some (k, o) -> o_data o <> Null ->
  (forall n q, 0 <= n < k_N k -> in_box (slot_box (m_size o) (k_locs k)) q -> reads w k o n q (Some (val n q))) ->
  m_disp chk k (heap w) o out = Ret (out ++ display val k (slot_box (m_size o) (k_locs k))) tt.
Proof.
  intros HA Hh Hf Hd Hv. destruct (after_find _ _ _ _ _ _ _ HA Hf) as (x & own & lk & Ad & HN & Hr & HR).
  pose proof (rep_class _ _ _ _ _ Hr) as Hc. pose proof (rep_shape_ok _ _ _ _ _ Hr) as Hs.
  destruct x as [|g f|g nb]; [destruct Hd; eapply data_null; eauto| |destruct (Hh _ _ _ Ad)].
  rewrite disp_eq by assumption. apply disp_emits; [now apply slot_box_len|].
  intros n q Hn Hq. exact (reads_cells w k o g f (own a) n q _ HN Hr (Hv n q Hn Hq)).
Qed.

Lemma disp_uninitialised F h w aw a k o n q chk out :
  after F h w aw -> healthy aw a -> find w a = Some (k, o) -> reads w k o n q None ->
  m_disp chk k (heap w) o out = Undef.
Proof.
  intros HA Hh Hf Hv. destruct (after_find _ _ _ _ _ _ _ HA Hf) as (x & own & lk & Ad & HN & Hr & HR).
  pose proof (rep_class _ _ _ _ _ Hr) as Hc. pose proof (rep_shape_ok _ _ _ _ _ Hr) as Hs.
  destruct x as [|g f|g nb]; [destruct (reads_empty w k o (own a) n q None Hr Hv)| |destruct (Hh _ _ _ Ad)].
  rewrite disp_eq by assumption.
  pose proof (reads_cells w k o g f (own a) n q _ HN Hr Hv) as E.
  apply (reads_rep w k o g f (own a) n q None HN Hr) in Hv. destruct Hv as (Hn & Hq & _).
  apply (disp_dead k _ (cells (heap w) o) n q); auto.
  - now apply slot_box_len.
  - apply calm_cells.
  - pose proof (rep_size _ _ _ _ _ Hr) as Z. cbn [a_shape] in Z. now rewrite Z.
  - intros v. rewrite E. discriminate.
Qed.

Lemma disp_no_data F h w aw a k o val chk out :
  after F h w aw -> find w a = Some (k, o) -> o_data o = Null -> In center (k_locs k) ->
  m_disp chk k (heap w) o out = Ret (out ++ display val k (slot_box (m_size o) (k_locs k))) tt /\
  values (display val k (slot_box (m_size o) (k_locs k))) = [].
Proof.
  intros HA Hf Hd Hc. destruct (after_find _ _ _ _ _ _ _ HA Hf) as (x & own & lk & Ad & HN & Hr & HR).
  pose proof (rep_class _ _ _ _ _ Hr) as Hk. pose proof (rep_shape_ok _ _ _ _ _ Hr) as Hs.
  pose proof (rep_size _ _ _ _ _ Hr) as Z. apply (data_null _ _ _ _ _ Hr) in Hd. subst x. cbn [a_shape] in Z.
  assert (Hno : forall q, ~ in_box (slot_box (m_size o) (k_locs k)) q).
  { rewrite Z. clear - Hc. revert Hc. generalize (k_locs k). induction l as [|c ls IH]; intros Hc q Hq; [destruct Hc|].
    unfold slot_box in *. cbn [map combine slots] in Hq. apply in_box_cons in Hq. destruct Hq as (x & q' & -> & Hx & Hq).
    destruct Hc as [->|Hc]; [cbn in Hx; lia|]. exact (IH Hc q' Hq). }
  split.
  - rewrite disp_eq by assumption. apply disp_emits; [now apply slot_box_len|]. intros n q _ Hq. destruct (Hno q Hq).
  - pose proof (slot_box_len k o Hk) as HL. revert HL Hno. generalize (slot_box (m_size o) (k_locs k)). clear.
    assert (X : forall {A} (l : list A) (g : A -> list (tok V)), (forall x, In x l -> values (g x) = []) -> values (flat_map g l) = []).
    { intros A l g H. induction l as [|x l IH]; [reflexivity|]. cbn [flat_map]. unfold values in *. rewrite flat_map_app, H by (now left).
      cbn [app]. apply IH. intros. apply H. now right. }
    assert (Y : forall t u, values (V := V) t = [] -> values u = [] -> values (t ++ u) = []).
    { intros t u H1 H2. unfold values in *. now rewrite flat_map_app, H1, H2. }
    intros B HL Hno. destruct k as [N l0|N l0 l1|N l0 l1 l2], B as [|f [|g [|h [|? ?]]]]; try discriminate; cbn [display].
    + apply X. intros x Hx. apply in_zrange in Hx. destruct (Hno [x]). repeat constructor; lia.
    + apply X. intros n Hn. apply (Y [_; _; _]); [reflexivity|]. apply Y; [|reflexivity]. apply X. intros x Hx. apply Y; [|reflexivity].
      apply X. intros y Hy. apply in_zrange in Hx, Hy. destruct (Hno [x; y]). repeat constructor; lia.
    + apply X. intros n Hn. apply (Y [_; _; _]); [reflexivity|]. apply Y; [|reflexivity]. apply X. intros x Hx. apply (Y [_; _; _]); [reflexivity|].
      apply X. intros y Hy. apply Y; [|reflexivity]. apply X. intros z Hz. apply in_zrange in Hx, Hy, Hz. destruct (Hno [x; y; z]). repeat constructor; lia.
Qed.

(** The elements of the text, in order. *)
Lemma values_flat {A} (l : list A) (g : A -> list (tok V)) : values (flat_map g l) = flat_map (fun x => values (g x)) l.
Proof. unfold values. induction l as [|x l IH]; [reflexivity|]. cbn [flat_map]. now rewrite flat_map_app, IH. Qed.

Lemma values_app (t u : list (tok V)) : values (t ++ u) = values t ++ values u.
Proof. apply flat_map_app. Qed.

Lemma map_flat_map {A B C} (f : B -> C) (g : A -> list B) l : map f (flat_map g l) = flat_map (fun x => map f (g x)) l.
Proof. induction l as [|x l IH]; [reflexivity|]. cbn. now rewrite map_app, IH. Qed.

Lemma flat_map_flat_map {A B C} (f : B -> list C) (g : A -> list B) l : flat_map f (flat_map g l) = flat_map (fun x => flat_map f (g x)) l.
Proof. induction l as [|x l IH]; [reflexivity|]. cbn. now rewrite flat_map_app, IH. Qed.

Lemma flat_map_map {A B C} (f : B -> list C) (g : A -> B) l : flat_map f (map g l) = flat_map (fun x => f (g x)) l.
Proof. induction l as [|x l IH]; [reflexivity|]. cbn. now rewrite IH. Qed.

Lemma flat_map_ext' {A B} (f g : A -> list B) l : (forall x, f x = g x) -> flat_map f l = flat_map g l.
Proof. intros H. induction l as [|x l IH]; [reflexivity|]. cbn. now rewrite H, IH. Qed.

Lemma flat_map_single {A B} (f : A -> B) l : flat_map (fun x => [f x]) l = map f l.
Proof. induction l as [|x l IH]; [reflexivity|]. cbn. now rewrite IH. Qed.

Lemma display_values (val : Z -> list Z -> V) k B :
  length B = length (k_locs k) ->
  values (display val k B) =
  match k with
  | K1 N _ => flat_map (fun q => map (fun n => val n q) (zrange 0 N)) (points B)
  | _ => flat_map (fun n => map (val n) (points B)) (zrange 0 (k_N k))
  end.
Proof.
  intros HL. destruct k as [N l0|N l0 l1|N l0 l1 l2], B as [|f [|g [|h [|? ?]]]]; try discriminate; cbn [display points k_N].
  - rewrite values_flat, flat_map_flat_map. apply flat_map_ext'. intros x. cbn [map flat_map]. rewrite values_app, values_flat, !app_nil_r.
    apply flat_map_single.
  - rewrite values_flat. apply flat_map_ext'. intros n. rewrite !values_app, values_flat. cbn [values flat_map app].
    rewrite app_nil_r, map_flat_map. apply flat_map_ext'. intros x. rewrite !values_app, values_flat. cbn [values flat_map app].
    rewrite app_nil_r, map_map, map_flat_map. apply flat_map_ext'. intros y. reflexivity.
  - rewrite values_flat. apply flat_map_ext'. intros n. rewrite !values_app, values_flat. cbn [values flat_map app].
    rewrite app_nil_r, map_flat_map. apply flat_map_ext'. intros x.
    etransitivity; [exact (values_flat _ _)|]. rewrite map_map.
    rewrite map_flat_map. apply flat_map_ext'. intros y. rewrite !values_app, values_flat. cbn [values flat_map app].
    rewrite app_nil_r, map_map, map_flat_map. apply flat_map_ext'. intros z. reflexivity.
Qed.
End Disp.
