(** 0D arrays. *)

From Coq Require Import ZArith String List Bool Lia.
From Verif Require Import Base M_Loop M_Heap M_PD0 Spec_Loop Spec_Zero L_Base L_Loop L_Heap.
Import ListNotations.
Open Scope Z_scope.
Open Scope list_scope.

Section Zero.
Context {V : Type}.
Implicit Types (o : pd0 (V := V)) (h : list (op0 V)).

Definition cell0 (x : option V) : cell V := match x with Some v => CVal v | None => CUndef end.

(** The array holds, in each component, the last value of [h]. *)
Definition rep0 N o h : Prop :=
  Z.of_nat (length (p0_pt0 o)) = N /\ forall n, 0 <= n < N -> znth (p0_pt0 o) n = Some (cell0 (last_write0 h n)).

Lemma ctor0_rep N o : 0 <= N -> ctor0 N = Ok o -> 0 < N /\ rep0 N o [].
Proof.
  unfold ctor0. intros HN. destruct (N =? 0) eqn:E; [discriminate|]. zcmp. intros [= <-]. split; [lia|]. unfold rep0. cbn [p0_pt0].
  rewrite repeat_length. split; [lia|]. intros n Hn. unfold znth.
  replace (0 <=? n) with true by (symmetry; apply Z.leb_le; lia). cbn. rewrite nth_error_repeat by lia. reflexivity.
Qed.

Lemma last_write0_snoc h c n :
  last_write0 (h ++ [c]) n = match c with Write0 n' v => if n' =? n then Some v else last_write0 h n | Read0 _ => last_write0 h n end.
Proof.
  induction h as [|x h IH]; cbn [app last_write0].
  - destruct c as [n'|n' v]; [reflexivity|]. now destruct (n' =? n).
  - rewrite IH. destruct c as [n'|n' v]; [reflexivity|]. now destruct (n' =? n).
Qed.

Lemma check_n0_eq chk N n :
  0 < N <= INT_MAX -> check_n0 N chk n = if chk && (N <=? n) then Err (EN n (N - 1)) else Ok tt.
Proof.
  intros HN. unfold check_n0. destruct chk; [|reflexivity]. cbn [andb]. rewrite Z.geb_leb.
  destruct (N <=? n); [|reflexivity]. rewrite u2i_small by lia. unfold isub. ckgo. reflexivity.
Qed.

(** One statement. *)
Lemma step0_ok chk N o h c :
  0 < N <= INT_MAX -> rep0 N o h -> 0 <= arg0 c -> (chk = true \/ arg0 c < N) ->
  exists o', step0 N chk o c = Some (o', answer0 N h c) /\ rep0 N o' (h ++ [c]).
Proof.
  intros HN [HL HC] Ha Hc. destruct c as [n|n v]; cbn [arg0 step0] in *; unfold read0, write0; rewrite check_n0_eq by assumption;
  cbn [answer0]; destruct (N <=? n) eqn:E; zcmp.
  - destruct Hc as [->|Hc]; [|lia]. exists o. split; [reflexivity|]. split; [assumption|]. intros k Hk. rewrite last_write0_snoc. auto.
  - rewrite andb_false_r. cbn [rbind]. rewrite (arr_get_ok _ _ _ (HC n ltac:(lia))). exists o. split.
    + destruct (last_write0 h n); reflexivity.
    + split; [assumption|]. intros k Hk. rewrite last_write0_snoc. auto.
  - destruct Hc as [->|Hc]; [|lia]. exists o. split; [reflexivity|]. split; [assumption|]. intros k Hk. rewrite last_write0_snoc.
    destruct (n =? k) eqn:E'; zcmp; [lia|]. auto.
  - rewrite andb_false_r. cbn [rbind]. unfold arr_set.
    replace ((0 <=? n) && (n <? Z.of_nat (length (p0_pt0 o)))) with true
      by (symmetry; apply andb_true_intro; split; [apply Z.leb_le|apply Z.ltb_lt]; lia).
    cbn [rbind]. eexists. split; [reflexivity|]. split; cbn [p0_pt0]; [now rewrite upd_length|].
    intros k Hk. rewrite znth_upd by lia. rewrite last_write0_snoc. rewrite (Z.eqb_sym k n).
    destruct (n =? k); [reflexivity|]. auto.
Qed.

Fixpoint answers0 (N : Z) (done h : list (op0 V)) : list (result0 V) :=
  match h with [] => [] | c :: h' => answer0 N done c :: answers0 N (done ++ [c]) h' end.

Lemma exec0_ok chk N h : forall o done,
  0 < N <= INT_MAX -> rep0 N o done -> Forall (fun c => 0 <= arg0 c /\ (chk = true \/ arg0 c < N)) h ->
  exists o', exec0 N chk o h = Some (o', answers0 N done h) /\ rep0 N o' (done ++ h).
Proof.
  induction h as [|c h IH]; intros o done HN HR HF; cbn [exec0 answers0].
  - exists o. rewrite app_nil_r. auto.
  - inversion HF as [|? ? [H1 H2] H3]; subst. destruct (step0_ok chk N o done c HN HR H1 H2) as (o1 & -> & HR1).
    destruct (IH o1 (done ++ [c]) HN HR1 H3) as (o2 & -> & HR2). rewrite <- app_assoc in HR2. exists o2. auto.
Qed.

Lemma answers0_nth N h : forall done j c,
  nth_error h j = Some c -> nth_error (answers0 N done h) j = Some (answer0 N (done ++ firstn j h) c).
Proof.
  induction h as [|x h IH]; intros done [|j] c H; cbn in *; try discriminate.
  - injection H as ->. now rewrite app_nil_r.
  - rewrite (IH (done ++ [x]) j c H). now rewrite <- app_assoc.
Qed.

Lemma answers0_length N h done : length (answers0 N done h) = length h.
Proof. revert done. induction h as [|x h IH]; intros done; cbn; [reflexivity|]. now rewrite IH. Qed.

Lemma histories0 chk N o h :
  0 <= N <= INT_MAX -> ctor0 N = Ok o -> Forall (fun c => 0 <= arg0 c /\ (chk = true \/ arg0 c < N)) h ->
  exists o' rs, exec0 N chk o h = Some (o', rs) /\ length rs = length h /\
    forall j c, nth_error h j = Some c -> nth_error rs j = Some (answer0 N (firstn j h) c).
Proof.
  intros HN Hc HF. apply ctor0_rep in Hc; [|lia]. destruct Hc as [H0 HR].
  destruct (exec0_ok chk N h o [] ltac:(lia) HR HF) as (o' & E & _).
  exists o', (answers0 N [] h). split; [assumption|]. split; [apply answers0_length|].
  intros j c. apply (answers0_nth N h []).
Qed.

Lemma ctor0_iff (N : Z) : (exists o : pd0 (V := V), ctor0 N = Ok o) <-> N <> 0.
Proof.
  unfold ctor0. destruct (N =? 0) eqn:E; zcmp; split; intros H; try congruence; [destruct H; discriminate|]. eauto.
Qed.

Lemma ctor0_zero : ctor0 (V := V) 0 = Err ENZero.
Proof. reflexivity. Qed.

(** Without the checks a component number out of range is undefined. *)
Lemma unchecked0 N o h c :
  0 <= N <= INT_MAX -> rep0 N o h -> N <= arg0 c -> step0 N false o c = None.
Proof.
  intros HN [HL HC] Ha. destruct c as [n|n v]; cbn [arg0 step0] in *; unfold read0, write0, check_n0; cbn [rbind].
  - unfold arr_get. replace (nth_error (p0_pt0 o) (Z.to_nat n)) with (@None (cell V)); [now destruct (0 <=? n)|].
    symmetry. apply nth_error_None. lia.
  - unfold arr_set. replace (n <? Z.of_nat (length (p0_pt0 o))) with false by (symmetry; apply Z.ltb_ge; lia).
    rewrite andb_false_r. reflexivity.
Qed.

Lemma outside0 N o h o' rs c :
  0 <= N <= INT_MAX -> ctor0 N = Ok o -> Forall (fun c => 0 <= arg0 c) h ->
  exec0 N true o h = Some (o', rs) -> N <= arg0 c -> step0 N false o' c = None.
Proof.
  intros HN Hc HF E Ha. apply ctor0_rep in Hc; [|lia]. destruct Hc as [H0 HR].
  destruct (exec0_ok true N h o [] ltac:(lia) HR) as (o1 & E' & HR').
  - eapply Forall_impl; [|exact HF]. auto.
  - rewrite E in E'. injection E' as <- _. eapply unchecked0; eassumption.
Qed.

(** disp_data. *)
Lemma disp0 N o h val (o' : pd0) rs out :
  0 <= N <= INT_MAX -> ctor0 N = Ok o -> Forall (fun c => 0 <= arg0 c) h -> exec0 N true o h = Some (o', rs) ->
  (forall n, 0 <= n < N -> last_write0 h n = Some (val n)) ->
  disp_data0 N o' out = Ret (out ++ flat_map (fun n => [TVal (val n); TStr ", "]) (zrange 0 N)) tt.
Proof.
  intros HN Hc HF E Hv. apply ctor0_rep in Hc; [|lia]. destruct Hc as [H0 HR].
  destruct (exec0_ok true N h o [] ltac:(lia) HR) as (o1 & E' & [HL HC]).
  { eapply Forall_impl; [|exact HF]. auto. }
  rewrite E in E'. injection E' as <- _. cbn [app] in HC. clear HR E.
  unfold disp_data0. rewrite for_uint_run by lia.
  assert (X : forall l out, (forall n, In n l -> 0 <= n < N) ->
    run l (fun n => put_cell (arr_get (p0_pt0 o') n) ;;; put (TStr ", ")) out =
    Ret (out ++ flat_map (fun n => [TVal (val n); TStr ", "]) l) tt).
  { induction l as [|n l IH]; intros t Hl; cbn [run flat_map]; [now rewrite app_nil_r|].
    pose proof (Hl n (or_introl eq_refl)) as Hn. unfold bind at 1. unfold bind at 1. unfold put_cell, bind at 1.
    rewrite (arr_get_ok _ _ _ (HC n Hn)), (Hv n Hn). cbn [lift cell0]. unfold put. rewrite IH by (intros; apply Hl; now right).
    rewrite <- !app_assoc. reflexivity. }
  apply X. intros n. apply in_zrange.
Qed.
End Zero.
