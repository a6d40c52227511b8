(** A block that was deleted stays deleted, and numbers of blocks are not used again. *)

From Coq Require Import ZArith String List Bool Lia.
From Verif Require Import Base M_Flags M_Loop M_RS1 M_RS2 M_RS3 M_Bytes M_TecZone M_TecFile M_Read M_Heap M_PD1 M_PD2 M_PD3 M_World L_Heap.
Import ListNotations.
Open Scope Z_scope.

Section Dead.
Context {V : Type}.
Implicit Types (m : mem V).

Definition later m m' : Prop :=
  (length (blocks m) <= length (blocks m'))%nat /\
  forall b, (b < length (blocks m))%nat -> block m b = None -> block m' b = None.

Lemma later_refl m : later m m.
Proof. split; auto. Qed.
Lemma later_trans m m1 m2 : later m m1 -> later m1 m2 -> later m m2.
Proof. intros (A & B) (C & D). split; [lia|]. intros b Hb H. apply D; [lia|auto]. Qed.

(** [p] finds the memory in the state. *)
Definition kd {T A} (p : T -> mem V) (x : M T A) : Prop :=
  forall s, match x s with Ret s' _ => later (p s) (p s') | Thr s' _ => later (p s) (p s') | Undef => True end.

Section Rules.
Context {T : Type} (p : T -> mem V).
Lemma kd_ret {A} (a : A) : kd p (ret a).
Proof. intros s. apply later_refl. Qed.
Lemma kd_throw {A} e : kd p (@throw T A e).
Proof. intros s. apply later_refl. Qed.
Lemma kd_undef {A} : kd p (@undef T A).
Proof. intros s. exact I. Qed.
Lemma kd_lift {A} (r : res A) : kd p (lift r).
Proof. intros s. unfold lift. destruct r; auto using later_refl. Qed.
Lemma kd_bind {A B} (x : M T A) (k : A -> M T B) : kd p x -> (forall a, kd p (k a)) -> kd p (bind x k).
Proof.
  intros H1 H2 s. unfold bind. pose proof (H1 s) as X. destruct (x s) as [s' a|s' e|]; auto.
  pose proof (H2 a s') as Y. destruct (k a s') as [s2 b|s2 e|]; eauto using later_trans.
Qed.
Lemma kd_catch {A} (x h : M T A) : kd p x -> kd p h -> kd p (catch_bad_alloc x h).
Proof.
  intros H1 H2 s. unfold catch_bad_alloc. pose proof (H1 s) as X. destruct (x s) as [s' a|s' e|]; auto.
  destruct e; auto. pose proof (H2 s') as Y. destruct (h s') as [s2 b|s2 e|]; eauto using later_trans.
Qed.
Lemma kd_iter_int k body : (forall i, kd p (body i)) -> forall i, kd p (iter_int k i body).
Proof. intros H. induction k as [|k IH]; intros i; cbn; [apply kd_ret|]. apply kd_bind; auto. Qed.
Lemma kd_iter_uint k body : (forall i, kd p (body i)) -> forall i, kd p (iter_uint k i body).
Proof. intros H. induction k as [|k IH]; intros i; cbn; [apply kd_ret|]. apply kd_bind; auto. Qed.
Lemma kd_for_int b e body : (forall i, kd p (body i)) -> kd p (for_int b e body).
Proof.
  intros H. unfold for_int. destruct (b <=? e); [now apply kd_iter_int|].
  apply kd_bind; [now apply kd_iter_int|intros; apply kd_undef].
Qed.
Lemma kd_for_uint b e body : (forall i, kd p (body i)) -> kd p (for_uint b e body).
Proof. intros H. unfold for_uint. now apply kd_iter_uint. Qed.
End Rules.

Lemma kd_get_snd {T} : kd (@fst (mem V) T) get_snd.
Proof. intros s. apply later_refl. Qed.
Lemma kd_upd_snd {T} f : kd (@fst (mem V) T) (upd_snd f).
Proof. intros s. apply later_refl. Qed.
Lemma kd_on_fst {T A} (x : M (mem V) A) : kd (fun m => m) x -> kd (@fst (mem V) T) (on_fst x).
Proof. intros H [m t]. unfold on_fst. pose proof (H m) as X. destruct (x m); cbn [fst]; auto. Qed.
Lemma kd_gets {A} (f : mem V -> res A) : kd (fun m => m) (gets f).
Proof. intros m. unfold gets, lift. destruct (f m); auto using later_refl. Qed.

Lemma block_upd m b x c : (b < length (blocks m))%nat -> block (set_block m b x) c = if (c =? b)%nat then x else block m c.
Proof.
  unfold block, set_block. cbn [blocks]. revert b c. induction (blocks m) as [|y l IH]; intros b c Hb; [cbn in Hb; lia|].
  destruct b, c; cbn [upd nth_error Nat.eqb]; try reflexivity; [destruct x; reflexivity|]. apply IH. cbn in Hb. lia.
Qed.
Lemma length_upd {A} (l : list A) k x : length (upd l k x) = length l.
Proof. revert k. induction l as [|y l IH]; intros [|k]; cbn; auto. Qed.
Lemma block_some_lt m b cs : block m b = Some cs -> (b < length (blocks m))%nat.
Proof. unfold block. intros H. apply nth_error_Some. destruct (nth_error (blocks m) b); congruence. Qed.

Lemma kd_hnew len : kd (fun m => m) (hnew len).
Proof.
  intros m. unfold hnew. destruct (fails m (tick m)).
  - split; [cbn; lia|]. intros b _ H. exact H.
  - split; [cbn [blocks]; rewrite app_length; cbn; lia|]. intros b Hb H. unfold block in *. cbn [blocks].
    rewrite nth_error_app1 by assumption. exact H.
Qed.
Lemma kd_hdelete q : kd (fun m => m) (hdelete q).
Proof.
  intros m. unfold hdelete. destruct q as [|b off|]; auto using later_refl. destruct (off =? 0); auto.
  destruct (block m b) as [cs|] eqn:E; auto. split; [unfold set_block; cbn [blocks]; rewrite length_upd; lia|].
  intros c Hc H. rewrite block_upd by (eapply block_some_lt; eassumption). destruct (c =? b)%nat; auto.
Qed.
Lemma kd_store q c : kd (fun m => m) (store q c).
Proof.
  intros m. unfold store. destruct q as [|b off|]; auto. destruct (block m b) as [cs|] eqn:E; auto.
  destruct ((0 <=? off) && (off <? Z.of_nat (length cs))); auto.
  split; [unfold set_block; cbn [blocks]; rewrite length_upd; lia|].
  intros d Hd H. rewrite block_upd by (eapply block_some_lt; eassumption). destruct (d =? b)%nat eqn:X; auto.
  apply Nat.eqb_eq in X. subst d. congruence.
Qed.
Lemma kd_buf_new n : kd fst (@buf_new V n).
Proof.
  intros [m l]. unfold buf_new. destruct (fails m (tick m) || (2 ^ 63 <=? n)); cbn [fst]; (split; [cbn; lia|]); intros b _ H; exact H.
Qed.
End Dead.

Ltac kd_step :=
  match goal with
  | |- kd _ (ret _) => apply kd_ret
  | |- kd _ (throw _) => apply kd_throw
  | |- kd _ undef => apply kd_undef
  | |- kd _ (lift _) => apply kd_lift
  | |- kd _ (bind _ _) => apply kd_bind; [|intros]
  | |- kd _ (catch_bad_alloc _ _) => apply kd_catch
  | |- kd _ (for_int _ _ _) => apply kd_for_int; intros
  | |- kd _ (for_uint _ _ _) => apply kd_for_uint; intros
  | |- kd _ get_snd => apply kd_get_snd
  | |- kd _ (upd_snd _) => apply kd_upd_snd
  | |- kd _ (on_fst _) => apply kd_on_fst
  | |- kd _ (gets _) => apply kd_gets
  | |- kd _ (hnew _) => apply kd_hnew
  | |- kd _ (hdelete _) => apply kd_hdelete
  | |- kd _ (store _ _) => apply kd_store
  | |- kd _ (buf_new _) => apply kd_buf_new
  | |- kd _ (if ?b then _ else _) => destruct b
  | |- kd _ (match ?x with _ => _ end) => destruct x
  end.
Ltac kd_go := repeat kd_step.

Section Calls.
Context {V : Type}.

Lemma kd_in1 (x : M (mem V * pd1) unit) : kd fst x -> kd fst (in1 x).
Proof. intros H [m o]. unfold in1. destruct o as [o|o|o]; auto. pose proof (H (m, o)) as X. destruct (x (m, o)) as [[? ?] ?|[? ?] ?|]; auto. Qed.
Lemma kd_in2 (x : M (mem V * pd2) unit) : kd fst x -> kd fst (in2 x).
Proof. intros H [m o]. unfold in2. destruct o as [o|o|o]; auto. pose proof (H (m, o)) as X. destruct (x (m, o)) as [[? ?] ?|[? ?] ?|]; auto. Qed.
Lemma kd_in3 (x : M (mem V * pd3) unit) : kd fst x -> kd fst (in3 x).
Proof. intros H [m o]. unfold in3. destruct o as [o|o|o]; auto. pose proof (H (m, o)) as X. destruct (x (m, o)) as [[? ?] ?|[? ?] ?|]; auto. Qed.

Ltac members := unfold set_data1, set_data2, set_data3, set_size1, set_size2, set_size3, set_pt0_1, set_pt0_2, set_pt0_3,
  set_pt1_2, set_pt1_3, set_pt2_3.

Lemma kd_alloc1 chk N l n i p : kd fst (alloc1 chk N l n i p : M (mem V * pd1) unit).
Proof. unfold alloc1. members. kd_go. Qed.
Lemma kd_alloc2 chk N l l1 n i p n1 i1 p1 : kd fst (alloc2 chk N l l1 n i p n1 i1 p1 : M (mem V * pd2) unit).
Proof. unfold alloc2. members. kd_go. Qed.
Lemma kd_alloc3 chk N l l1 l2 n i p n1 i1 p1 n2 i2 p2 : kd fst (alloc3 chk N l l1 l2 n i p n1 i1 p1 n2 i2 p2 : M (mem V * pd3) unit).
Proof. unfold alloc3. members. kd_go. Qed.
Lemma kd_clear1 N : kd fst (clear1 N : M (mem V * pd1) unit).
Proof. unfold clear1. members. kd_go. Qed.
Lemma kd_clear2 : kd fst (clear2 : M (mem V * pd2) unit).
Proof. unfold clear2. members. kd_go. Qed.
Lemma kd_clear3 : kd fst (clear3 : M (mem V * pd3) unit).
Proof. unfold clear3. members. kd_go. Qed.

Lemma kd_ctor k : kd fst (m_ctor k : M (mem V * obj) unit).
Proof.
  destruct k; cbn [m_ctor]; [apply kd_in1; unfold ctor1|apply kd_in2; unfold ctor2|apply kd_in3; unfold ctor3]; members; kd_go.
Qed.
Lemma kd_alloc chk k gs : kd fst (m_alloc chk k gs : M (mem V * obj) unit).
Proof.
  destruct k; destruct gs as [|[[n i] p] [|[[n1 i1] p1] [|[[n2 i2] p2] [|? ?]]]]; cbn [m_alloc]; try apply kd_undef;
    first [apply kd_in1, kd_alloc1|apply kd_in2, kd_alloc2|apply kd_in3, kd_alloc3].
Qed.
Lemma kd_ctor_sized chk k gs : kd fst (m_ctor_sized chk k gs : M (mem V * obj) unit).
Proof.
  destruct k; destruct gs as [|[[n i] p] [|[[n1 i1] p1] [|[[n2 i2] p2] [|? ?]]]]; cbn [m_ctor_sized]; try apply kd_undef;
    [apply kd_in1; unfold ctor1_sized|apply kd_in2; unfold ctor2_sized|apply kd_in3; unfold ctor3_sized]; members;
    kd_go; auto using kd_alloc1, kd_alloc2, kd_alloc3.
Qed.
Lemma kd_realloc chk k gs : kd fst (m_realloc chk k gs : M (mem V * obj) unit).
Proof.
  destruct k; destruct gs as [|[[n i] p] [|[[n1 i1] p1] [|[[n2 i2] p2] [|? ?]]]]; cbn [m_realloc]; try apply kd_undef;
    [apply kd_in1; unfold realloc1|apply kd_in2; unfold realloc2|apply kd_in3; unfold realloc3]; members;
    kd_go; auto using kd_alloc1, kd_alloc2, kd_alloc3, kd_clear1, kd_clear2, kd_clear3.
Qed.
Lemma kd_clear k : kd fst (m_clear k : M (mem V * obj) unit).
Proof. destruct k; cbn [m_clear]; [apply kd_in1, kd_clear1|apply kd_in2, kd_clear2|apply kd_in3, kd_clear3]. Qed.
Lemma kd_dtor k : kd fst (m_dtor k : M (mem V * obj) unit).
Proof.
  destruct k; cbn [m_dtor]; [apply kd_in1; unfold dtor1|apply kd_in2; unfold dtor2|apply kd_in3; unfold dtor3]; kd_go;
    auto using kd_clear1, kd_clear2, kd_clear3.
Qed.
Lemma kd_copy1 chk N l d s same R r A a : kd (fun m : mem V => m) (copy_from1 chk N l d s same R r A a).
Proof. unfold copy_from1. kd_go. Qed.
Lemma kd_copy2 chk N l l1 d s same R r A B a b : kd (fun m : mem V => m) (copy_from2 chk N l l1 d s same R r A B a b).
Proof. unfold copy_from2. kd_go. Qed.
Lemma kd_copy3 chk N l l1 l2 d s same R r A B C a b c : kd (fun m : mem V => m) (copy_from3 chk N l l1 l2 d s same R r A B C a b c).
Proof. unfold copy_from3. kd_go. Qed.
Lemma kd_copy chk k d s same R r A a : kd (fun m : mem V => m) (m_copy chk k d s same R r A a).
Proof. unfold m_copy. kd_go; auto using kd_copy1, kd_copy2, kd_copy3. Qed.
Lemma kd_copy_tag chk k d s same R r A a : kd (fun m : mem V => m) (m_copy_tag chk k d s same R r A a).
Proof.
  unfold m_copy_tag, copy_from1_tag, copy_from2_tag, copy_from3_tag. kd_go; auto using kd_copy1, kd_copy2, kd_copy3.
Qed.
Lemma kd_copy_fl chk k d s same R r fl : kd (fun m : mem V => m) (m_copy_fl chk k d s same R r fl).
Proof.
  unfold m_copy_fl, copy_from1_fl, copy_from2_fl, copy_from3_fl. kd_go; auto using kd_copy1, kd_copy2, kd_copy3.
Qed.
Lemma kd_copy_tag_fl chk k d s same R r fl : kd (fun m : mem V => m) (m_copy_tag_fl chk k d s same R r fl).
Proof.
  unfold m_copy_tag_fl, copy_from1_tag_fl, copy_from2_tag_fl, copy_from3_tag_fl. kd_go; auto using kd_copy1, kd_copy2, kd_copy3.
Qed.
Lemma kd_read_plt chk of_float of_double k fs root log zone name nn o :
  kd (@fst (mem V) Z) (m_read_plt chk of_float of_double k fs root log zone name nn o).
Proof.
  unfold m_read_plt, read_plt1, read_plt2, read_plt3, read_var, by_type, read_bytes, open_at, put_temp, buf_delete. cbv zeta. kd_go.
Qed.

(** One call, and many. *)
Lemma step_later chk (w w' : world V) c r : step chk w c = Some (w', r) -> later (heap w) (heap w').
Proof.
  assert (HC : forall k x, kd fst x -> construct w k x = Some (w', r) -> later (heap w) (heap w')).
  { intros k x H. unfold construct. pose proof (H (heap w, m_blank k)) as X.
    destruct (x (heap w, m_blank k)) as [[m o] u|[m o] e|]; intros E; try discriminate E; injection E as <- _; exact X. }
  assert (HO : forall a f, (forall k, kd fst (f k)) -> on_obj w a f = Some (w', r) -> later (heap w) (heap w')).
  { intros a f H. unfold on_obj. destruct (find w a) as [[k o]|]; [|discriminate]. pose proof (H k (heap w, o)) as X.
    destruct (f k (heap w, o)) as [[m o'] u|[m o'] e|]; intros E; try discriminate E; injection E as <- _; exact X. }
  assert (HM : forall A (f : M (mem V) A) g, kd (fun m => m) f -> on_mem w f g = Some (w', r) -> later (heap w) (heap w')).
  { intros A f g H. unfold on_mem. pose proof (H (heap w)) as X.
    destruct (f (heap w)) as [m u|m e|]; intros E; try discriminate E; injection E as <- _; exact X. }
  assert (HT : forall d s f, (forall k od os b, kd (fun m => m) (f k od os b)) -> on_two w d s f = Some (w', r) -> later (heap w) (heap w')).
  { intros d s f H. unfold on_two. destruct (find w d) as [[k od]|]; [|discriminate]. destruct (find w s) as [[k' os]|]; [|discriminate].
    destruct (kind_eqb k k'); [|discriminate]. apply HM, H. }
  destruct c; cbn [step].
  - apply HC, kd_ctor.
  - apply HC, kd_ctor_sized.
  - apply HO. intros. apply kd_alloc.
  - apply HO. intros. apply kd_realloc.
  - apply HO. intros. apply kd_clear.
  - destruct (on_obj w a m_dtor) as [[w1 r1]|] eqn:E; [|discriminate]. destruct r1; try discriminate.
    intros X. injection X as <- _. cbn [heap]. revert E. unfold on_obj. destruct (find w a) as [[k o]|]; [|discriminate].
    pose proof (kd_dtor k (heap w, o)) as Y.
    destruct (m_dtor k (heap w, o)) as [[m o'] u|[m o'] e|]; intros E; try discriminate E; injection E as <-; exact Y.
  - destruct (find w a) as [[k o]|]; [|discriminate]. intros E. injection E as <- _. apply later_refl.
  - destruct (find w a) as [[k o]|]; [|discriminate]. apply HM. kd_go.
  - destruct (find w a) as [[k o]|]; [|discriminate]. apply HM. kd_go.
  - destruct (find w a) as [[k o]|]; [|discriminate]. apply HM. kd_go.
  - destruct (find w a) as [[k o]|]; [|discriminate]. apply HM. kd_go.
  - apply HT. intros. apply kd_copy.
  - apply HT. intros. apply kd_copy_tag.
  - apply HT. intros. apply kd_copy_fl.
  - apply HT. intros. apply kd_copy_tag_fl.
  - destruct (find w a) as [[k o]|]; [|discriminate]. apply HM. intros m.
    pose proof (kd_read_plt chk of_float of_double k fs root log zone name nn o (m, 0)) as X.
    destruct (m_read_plt chk of_float of_double k fs root log zone name nn o (m, 0)) as [[m' l] u|[m' l] e|]; auto.
Qed.
Lemma exec_later chk h : forall (w w' : world V) rs, exec chk w h = Some (w', rs) -> later (heap w) (heap w').
Proof.
  induction h as [|c h IH]; intros w w' rs; cbn [exec].
  - intros E. injection E as <- _. apply later_refl.
  - destruct (step chk w c) as [[w1 r]|] eqn:E1; [|discriminate]. destruct (exec chk w1 h) as [[w2 rs2]|] eqn:E2; [|discriminate].
    intros E. injection E as <- _. eapply later_trans; [eapply step_later; eassumption|eapply IH; eassumption].
Qed.
End Calls.
