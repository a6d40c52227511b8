(** Lemmas for P_Reduce.v *)

From Coq Require Import ZArith List Bool Lia Permutation.
From Verif Require Import Base M_Bytes M_Flags M_Loop M_RS1 M_RS2 M_RS3 Spec Spec_Loop Spec_Tec M_Reduce Spec_Reduce.
From Verif Require Import L_Base L_Loop L_TecMin.
Import ListNotations.
Open Scope Z_scope.

(** ** A call is a fold *)

Fixpoint accumulate {T} (reduce : T -> T -> res T) (vals : list T) (acc : T) : res T :=
  match vals with
  | [] => Ok acc
  | v :: l => let* a := reduce v acc in accumulate reduce l a
  end.
Definition outcome {T} (reduce : T -> T -> res T) (vals : list T) (ans : T) : res T :=
  let* t := accumulate reduce vals ans in reduce t ans.

Lemma run_outcome {S T A} (reduce : T -> T -> res T) (s : S) (fn : A -> M S T) l vals :
  gives s fn l vals -> forall acc last,
  reduce_run reduce l fn acc last s = lift (let* t := accumulate reduce vals acc in reduce t last) s.
Proof.
  induction 1 as [|p v l vals Hv H IH]; intros acc last; cbn [reduce_run accumulate].
  - cbn [rbind]. reflexivity.
  - unfold bind at 1. rewrite Hv. unfold bind, lift at 1. destruct (reduce v acc) as [a|e|]; cbn [rbind]; [apply IH|reflexivity|reflexivity].
Qed.

Lemma reduction_outcome {S T} (reduce : T -> T -> res T) ans (s : S) vals call :
  reduction reduce ans s vals call -> call s = lift (outcome reduce vals ans) s.
Proof.
  unfold outcome. intros H. destruct H;
    [ rewrite reduce_components by assumption
    | rewrite reduce_D1 by assumption
    | rewrite reduce_N_D1 by assumption
    | rewrite reduce_D2 by assumption
    | rewrite reduce_N_D2 by assumption
    | rewrite reduce_D3 by assumption
    | rewrite reduce_N_D3 by assumption
    | rewrite (proj1 (reduce_reduced chk ans reduce)) by assumption
    | rewrite (proj1 (proj2 (reduce_reduced chk ans reduce))) by assumption
    | rewrite (proj1 (proj2 (proj2 (reduce_reduced chk ans reduce)))) by assumption
    | rewrite (proj1 (proj2 (proj2 (proj2 (reduce_reduced chk ans reduce))))) by assumption
    | rewrite (proj1 (proj2 (proj2 (proj2 (proj2 (reduce_reduced chk ans reduce)))))) by assumption
    | rewrite (proj2 (proj2 (proj2 (proj2 (proj2 (reduce_reduced chk ans reduce)))))) by assumption ];
    apply run_outcome; assumption.
Qed.

(** ** [int] *)

Lemma in_int_dec v : {in_int v} + {~ in_int v}.
Proof. unfold in_int. destruct (Z_le_dec INT_MIN v), (Z_le_dec v INT_MAX); [left; lia|right; lia|right; lia|right; lia]. Qed.
Lemma ck_in v : in_int v -> ck v = Ok v.
Proof. exact (ck_ok v). Qed.
Lemma ck_out v : ~ in_int v -> ck v = UB.
Proof.
  intros H. destruct (ck v) as [x|e|] eqn:E; [|destruct (ck_not_err _ _ E)|reflexivity].
  destruct (ck_inv _ _ E) as [_ B]. destruct (H B).
Qed.

Lemma zsum_cons x l : zsum (x :: l) = x + zsum l. Proof. reflexivity. Qed.
Lemma zprod_cons x l : zprod (x :: l) = x * zprod l. Proof. reflexivity. Qed.

Lemma sum_acc l : forall acc,
  ((forall k, in_int (acc + zsum (firstn k l))) -> accumulate RF_SUM l acc = Ok (acc + zsum l)) /\
  (~ (forall k, in_int (acc + zsum (firstn k l))) -> in_int acc -> accumulate RF_SUM l acc = UB).
Proof.
  induction l as [|x l IH]; intros acc; cbn [accumulate].
  - split.
    + intros _. f_equal. change (zsum []) with 0. ring.
    + intros H Ha. exfalso. apply H. intros k. rewrite firstn_nil. change (zsum []) with 0. rewrite Z.add_0_r. exact Ha.
  - unfold RF_SUM at 1 3, iadd. destruct (IH (acc + x)) as [I1 I2]. split.
    + intros H. rewrite ck_in. 2:{ specialize (H 1%nat). cbn [firstn zsum fold_right] in H. rewrite Z.add_0_r in H. exact H. }
      cbn [rbind]. rewrite I1; [rewrite zsum_cons; f_equal; ring|].
      intros k. specialize (H (S k)). cbn [firstn] in H. rewrite zsum_cons, Z.add_assoc in H. exact H.
    + intros H Ha. destruct (in_int_dec (acc + x)) as [B|B]; [rewrite (ck_in _ B)|rewrite (ck_out _ B); reflexivity].
      cbn [rbind]. apply I2; [|exact B]. intros G. apply H. intros [|k]; cbn [firstn].
      * change (zsum []) with 0. rewrite Z.add_0_r. exact Ha.
      * rewrite zsum_cons, Z.add_assoc. apply G.
Qed.

Lemma prod_acc l : forall acc,
  ((forall k, in_int (acc * zprod (firstn k l))) -> accumulate RF_PRO l acc = Ok (acc * zprod l)) /\
  (~ (forall k, in_int (acc * zprod (firstn k l))) -> in_int acc -> accumulate RF_PRO l acc = UB).
Proof.
  induction l as [|x l IH]; intros acc; cbn [accumulate].
  - split.
    + intros _. f_equal. change (zprod []) with 1. ring.
    + intros H Ha. exfalso. apply H. intros k. rewrite firstn_nil. change (zprod []) with 1. rewrite Z.mul_1_r. exact Ha.
  - unfold RF_PRO at 1 3, imul. destruct (IH (acc * x)) as [I1 I2]. split.
    + intros H. rewrite ck_in. 2:{ specialize (H 1%nat). cbn [firstn zprod fold_right] in H. rewrite Z.mul_1_r in H. exact H. }
      cbn [rbind]. rewrite I1; [rewrite zprod_cons; f_equal; ring|].
      intros k. specialize (H (S k)). cbn [firstn] in H. rewrite zprod_cons, Z.mul_assoc in H. exact H.
    + intros H Ha. destruct (in_int_dec (acc * x)) as [B|B]; [rewrite (ck_in _ B)|rewrite (ck_out _ B); reflexivity].
      cbn [rbind]. apply I2; [|exact B]. intros G. apply H. intros [|k]; cbn [firstn].
      * change (zprod []) with 1. rewrite Z.mul_1_r. exact Ha.
      * rewrite zprod_cons, Z.mul_assoc. apply G.
Qed.

Lemma sum_outcome ans l : in_int ans ->
  (sums_fit ans l -> outcome RF_SUM l ans = Ok (ans + zsum l + ans)) /\
  (~ sums_fit ans l -> outcome RF_SUM l ans = UB).
Proof.
  intros Ha. destruct (sum_acc l ans) as [A1 A2]. unfold sums_fit, outcome. split.
  - intros [H1 H2]. rewrite A1 by exact H1. cbn [rbind]. unfold RF_SUM, iadd.
    rewrite Z.add_comm. apply ck_in. exact H2.
  - intros H. assert (D : (forall k, in_int (ans + zsum (firstn k l))) \/ ~ (forall k, in_int (ans + zsum (firstn k l)))).
    { destruct (accumulate RF_SUM l ans) as [v|e|] eqn:E.
      - left. intros k. clear A1 A2 H. revert ans Ha v E k. induction l as [|x l IH]; intros ans Ha v E k.
        + rewrite firstn_nil. change (zsum []) with 0. rewrite Z.add_0_r. exact Ha.
        + cbn [accumulate] in E. unfold RF_SUM at 1, iadd in E.
          destruct (in_int_dec (ans + x)) as [B|B]; [rewrite (ck_in _ B) in E|rewrite (ck_out _ B) in E; discriminate E].
          cbn [rbind] in E. destruct k as [|k]; cbn [firstn].
          * change (zsum []) with 0. rewrite Z.add_0_r. exact Ha.
          * rewrite zsum_cons, Z.add_assoc. eapply IH; eassumption.
      - right. intros G. specialize (A1 G). congruence.
      - right. intros G. specialize (A1 G). congruence. }
    destruct D as [D|D].
    + rewrite (A1 D). cbn [rbind]. unfold RF_SUM, iadd. rewrite Z.add_comm. apply ck_out. tauto.
    + rewrite (A2 D Ha). reflexivity.
Qed.

Lemma prod_outcome ans l : in_int ans ->
  (products_fit ans l -> outcome RF_PRO l ans = Ok (ans * zprod l * ans)) /\
  (~ products_fit ans l -> outcome RF_PRO l ans = UB).
Proof.
  intros Ha. destruct (prod_acc l ans) as [A1 A2]. unfold products_fit, outcome. split.
  - intros [H1 H2]. rewrite A1 by exact H1. cbn [rbind]. unfold RF_PRO, imul.
    rewrite Z.mul_comm. apply ck_in. exact H2.
  - intros H. assert (D : (forall k, in_int (ans * zprod (firstn k l))) \/ ~ (forall k, in_int (ans * zprod (firstn k l)))).
    { destruct (accumulate RF_PRO l ans) as [v|e|] eqn:E.
      - left. intros k. clear A1 A2 H. revert ans Ha v E k. induction l as [|x l IH]; intros ans Ha v E k.
        + rewrite firstn_nil. change (zprod []) with 1. rewrite Z.mul_1_r. exact Ha.
        + cbn [accumulate] in E. unfold RF_PRO at 1, imul in E.
          destruct (in_int_dec (ans * x)) as [B|B]; [rewrite (ck_in _ B) in E|rewrite (ck_out _ B) in E; discriminate E].
          cbn [rbind] in E. destruct k as [|k]; cbn [firstn].
          * change (zprod []) with 1. rewrite Z.mul_1_r. exact Ha.
          * rewrite zprod_cons, Z.mul_assoc. eapply IH; eassumption.
      - right. intros G. specialize (A1 G). congruence.
      - right. intros G. specialize (A1 G). congruence. }
    destruct D as [D|D].
    + rewrite (A1 D). cbn [rbind]. unfold RF_PRO, imul. rewrite Z.mul_comm. apply ck_out. tauto.
    + rewrite (A2 D Ha). reflexivity.
Qed.

(** The absolute value of an [int]. *)
Lemma iabs_ok x : in_int x -> x <> INT_MIN -> iabs x = Ok (Z.abs x).
Proof.
  intros H N. unfold iabs. destruct (0 <=? x) eqn:E.
  - apply Z.leb_le in E. rewrite Z.abs_eq by lia. reflexivity.
  - apply Z.leb_gt in E. unfold ineg. rewrite ck_in; [f_equal; lia|]. unfold in_int in *. lia.
Qed.
Lemma iabs_min : iabs INT_MIN = UB.
Proof. reflexivity. Qed.

Lemma zsum_nonneg l : Forall (fun x => 0 <= x) l -> 0 <= zsum l.
Proof. induction 1; cbn [zsum fold_right]; [lia|]. unfold zsum in *. lia. Qed.
Lemma abs_nonneg l : Forall (fun x => 0 <= x) (map Z.abs l).
Proof. induction l; cbn [map]; constructor; auto. lia. Qed.

Lemma sum_abs_acc l : forall acc, Forall in_int l -> 0 <= acc <= INT_MAX ->
  accumulate RF_SUM_ABS l acc =
  if acc + zsum (map Z.abs l) <=? INT_MAX then Ok (acc + zsum (map Z.abs l)) else UB.
Proof.
  induction l as [|x l IH]; intros acc Hl Ha; cbn [accumulate map].
  - change (zsum []) with 0. rewrite Z.add_0_r. destruct (Z.leb_spec acc INT_MAX); [reflexivity|lia].
  - inversion Hl as [|? ? Hx Hl']; subst. rewrite zsum_cons. unfold RF_SUM_ABS at 1.
    pose proof (zsum_nonneg _ (abs_nonneg l)) as P.
    destruct (Z.eq_dec x INT_MIN) as [->|N].
    + rewrite iabs_min. cbn [rbind]. destruct (Z.leb_spec (acc + (Z.abs INT_MIN + zsum (map Z.abs l))) INT_MAX) as [L|L]; [|reflexivity].
      exfalso. change (Z.abs INT_MIN) with (INT_MAX + 1) in L. lia.
    + rewrite (iabs_ok x Hx N). cbn [rbind]. unfold iadd.
      destruct (in_int_dec (acc + Z.abs x)) as [B|B].
      * rewrite (ck_in _ B). cbn [rbind]. rewrite IH; [|exact Hl'|unfold in_int in B; lia].
        replace (acc + Z.abs x + zsum (map Z.abs l)) with (acc + (Z.abs x + zsum (map Z.abs l))) by ring. reflexivity.
      * rewrite (ck_out _ B). cbn [rbind]. destruct (Z.leb_spec (acc + (Z.abs x + zsum (map Z.abs l))) INT_MAX) as [L|L]; [|reflexivity].
        exfalso. apply B. unfold in_int. lia.
Qed.

Lemma sum_abs_outcome ans l : Forall in_int l -> 0 <= ans <= INT_MAX ->
  outcome RF_SUM_ABS l ans =
  if ans + zsum (map Z.abs l) + ans <=? INT_MAX then Ok (ans + zsum (map Z.abs l) + ans) else UB.
Proof.
  intros Hl Ha. unfold outcome. rewrite sum_abs_acc by assumption.
  pose proof (zsum_nonneg _ (abs_nonneg l)) as P. set (t := zsum (map Z.abs l)) in *. clearbody t.
  destruct (Z.leb_spec (ans + t) INT_MAX) as [L|L]; cbn [rbind].
  - unfold RF_SUM_ABS. rewrite iabs_ok; [|unfold in_int; lia|lia]. cbn [rbind].
    rewrite Z.abs_eq by lia. unfold iadd. rewrite Z.add_comm.
    destruct (Z.leb_spec (ans + t + ans) INT_MAX) as [K|K]; [apply ck_in|apply ck_out]; unfold in_int; lia.
  - destruct (Z.leb_spec (ans + t + ans) INT_MAX) as [K|K]; [lia|reflexivity].
Qed.

(** The products of absolute values are those of the list of absolute values. *)
Lemma prod_abs_acc l : forall acc, Forall in_int l -> ~ In INT_MIN l ->
  accumulate RF_PRO_ABS l acc = accumulate RF_PRO (map Z.abs l) acc.
Proof.
  induction l as [|x l IH]; intros acc Hl N; [reflexivity|].
  inversion Hl as [|? ? Hx Hl']; subst. cbn [accumulate map]. unfold RF_PRO_ABS at 1, RF_PRO at 1.
  rewrite iabs_ok; [|exact Hx|intros ->; apply N; left; reflexivity]. cbn [rbind].
  destruct (imul acc (Z.abs x)); cbn [rbind]; [|reflexivity|reflexivity]. apply IH; [exact Hl'|].
  intros I. apply N. right. exact I.
Qed.
Lemma prod_abs_min l : forall acc, Forall in_int l -> In INT_MIN l -> accumulate RF_PRO_ABS l acc = UB.
Proof.
  induction l as [|x l IH]; intros acc Hl I; [destruct I|]. inversion Hl as [|? ? Hx Hl']; subst.
  cbn [accumulate]. unfold RF_PRO_ABS at 1. destruct (Z.eq_dec x INT_MIN) as [->|N].
  - rewrite iabs_min. reflexivity.
  - rewrite (iabs_ok x Hx N). cbn [rbind]. unfold imul. destruct (in_int_dec (acc * Z.abs x)) as [B|B].
    + rewrite (ck_in _ B). cbn [rbind]. apply IH; [exact Hl'|]. destruct I as [I|I]; [congruence|exact I].
    + rewrite (ck_out _ B). reflexivity.
Qed.

Lemma zprod_nonneg l : Forall (fun x => 0 <= x) l -> 0 <= zprod l.
Proof. induction 1; cbn [zprod fold_right]; [lia|]. unfold zprod in *. apply Z.mul_nonneg_nonneg; assumption. Qed.

Lemma prod_abs_outcome ans l : Forall in_int l -> 0 <= ans <= INT_MAX ->
  (~ In INT_MIN l /\ products_fit ans (map Z.abs l) ->
     outcome RF_PRO_ABS l ans = Ok (ans * zprod (map Z.abs l) * ans)) /\
  (~ (~ In INT_MIN l /\ products_fit ans (map Z.abs l)) -> outcome RF_PRO_ABS l ans = UB).
Proof.
  intros Hl Ha. assert (Hi : in_int ans) by (unfold in_int; lia).
  destruct (in_dec Z.eq_dec INT_MIN l) as [I|I].
  - split; [tauto|]. intros _. unfold outcome. rewrite prod_abs_min by assumption. reflexivity.
  - pose proof (prod_outcome ans (map Z.abs l) Hi) as [P1 P2].
    assert (E : outcome RF_PRO_ABS l ans = outcome RF_PRO (map Z.abs l) ans).
    { unfold outcome. rewrite prod_abs_acc by assumption.
      destruct (accumulate RF_PRO (map Z.abs l) ans) as [v|e|] eqn:E; cbn [rbind]; [|reflexivity|reflexivity].
      assert (B : 0 <= v <= INT_MAX).
      { clear P1 P2 I Hl Hi. pose proof (abs_nonneg l) as N. revert v ans Ha E. induction N as [|x m Hx Hm IHm]; intros v ans Ha E.
        - injection E as <-. exact Ha.
        - cbn [accumulate] in E. unfold RF_PRO at 1, imul in E. destruct (in_int_dec (ans * x)) as [B|B]; [rewrite (ck_in _ B) in E|rewrite (ck_out _ B) in E; discriminate E].
          cbn [rbind] in E. eapply IHm; [|exact E]. unfold in_int in B. split; [|lia]. apply Z.mul_nonneg_nonneg; lia. }
      unfold RF_PRO_ABS, RF_PRO. rewrite iabs_ok; [|unfold in_int; lia|lia]. cbn [rbind].
      rewrite Z.abs_eq by lia. reflexivity. }
    rewrite E. split; [intros [_ F]; apply P1; exact F|]. intros F. apply P2. intros G. apply F. split; assumption.
Qed.

Lemma max_acc l : forall acc, accumulate RF_MAX l acc = Ok (fold_right Z.max acc l).
Proof.
  induction l as [|x l IH]; intros acc; cbn [accumulate fold_right]; [reflexivity|].
  unfold RF_MAX at 1. cbn [rbind]. rewrite IH. f_equal. clear IH.
  induction l as [|y l IH]; cbn [fold_right]; [destruct (Z.ltb_spec acc x); lia|]. lia.
Qed.
Lemma min_acc l : forall acc, accumulate RF_MIN l acc = Ok (fold_right Z.min acc l).
Proof.
  induction l as [|x l IH]; intros acc; cbn [accumulate fold_right]; [reflexivity|].
  unfold RF_MIN at 1. cbn [rbind]. rewrite IH. f_equal. clear IH.
  induction l as [|y l IH]; cbn [fold_right]; [destruct (acc >? x) eqn:E; rewrite Z.gtb_ltb in E; [apply Z.ltb_lt in E|apply Z.ltb_ge in E]; lia|]. lia.
Qed.
Lemma fold_max_ge l ans : ans <= fold_right Z.max ans l.
Proof. induction l; cbn [fold_right]; lia. Qed.
Lemma fold_min_le l ans : fold_right Z.min ans l <= ans.
Proof. induction l; cbn [fold_right]; lia. Qed.

Lemma max_outcome l ans : outcome RF_MAX l ans = Ok (fold_right Z.max ans l).
Proof.
  unfold outcome. rewrite max_acc. cbn [rbind]. unfold RF_MAX. f_equal. pose proof (fold_max_ge l ans).
  destruct (Z.ltb_spec ans (fold_right Z.max ans l)); lia.
Qed.
Lemma min_outcome l ans : outcome RF_MIN l ans = Ok (fold_right Z.min ans l).
Proof.
  unfold outcome. rewrite min_acc. cbn [rbind]. unfold RF_MIN. f_equal. pose proof (fold_min_le l ans).
  destruct (ans >? fold_right Z.min ans l) eqn:E; rewrite Z.gtb_ltb in E; [apply Z.ltb_lt in E|apply Z.ltb_ge in E]; lia.
Qed.

(** The reducers with absolute values, on lists without [INT_MIN]. *)
Lemma abs_acc (red red' : Z -> Z -> res Z) l :
  (forall x acc, red' x acc = let* a := iabs x in red a acc) -> (forall x acc, exists v, red x acc = Ok v) ->
  Forall in_int l -> forall acc,
  (In INT_MIN l -> accumulate red' l acc = UB) /\
  (~ In INT_MIN l -> accumulate red' l acc = accumulate red (map Z.abs l) acc).
Proof.
  intros E T. induction l as [|x l IH]; intros Hl acc; cbn [accumulate map]; [split; [intros []|reflexivity]|].
  inversion Hl as [|? ? Hx Hl']; subst. rewrite E. destruct (Z.eq_dec x INT_MIN) as [->|N].
  - rewrite iabs_min. split; [reflexivity|]. intros I. exfalso. apply I. left. reflexivity.
  - rewrite (iabs_ok x Hx N). cbn [rbind]. destruct (T (Z.abs x) acc) as (v & Ev). rewrite Ev. cbn [rbind].
    destruct (IH Hl' v) as [I1 I2]. split.
    + intros [K|K]; [congruence|apply I1; exact K].
    + intros K. apply I2. intros G. apply K. right. exact G.
Qed.

Lemma fold_max_int l ans : in_int ans -> Forall in_int l -> ~ In INT_MIN l -> in_int (fold_right Z.max ans (map Z.abs l)).
Proof.
  intros Ha Hl. induction Hl as [|x l Hx Hl IH]; intros N; cbn [map fold_right]; [exact Ha|].
  assert (J : in_int (fold_right Z.max ans (map Z.abs l))) by (apply IH; intros K; apply N; right; exact K).
  assert (x <> INT_MIN) by (intros ->; apply N; left; reflexivity).
  unfold in_int in *. lia.
Qed.
Lemma fold_min_int l ans : in_int ans -> in_int (fold_right Z.min ans (map Z.abs l)).
Proof.
  intros Ha. induction l as [|x l IH]; cbn [map fold_right]; [exact Ha|].
  unfold in_int in *. lia.
Qed.

Lemma max_abs_outcome l ans : Forall in_int l -> in_int ans -> 0 <= ans \/ l <> [] ->
  (In INT_MIN l -> outcome RF_MAX_ABS l ans = UB) /\
  (~ In INT_MIN l -> outcome RF_MAX_ABS l ans = Ok (fold_right Z.max ans (map Z.abs l))).
Proof.
  intros Hl Ha Hn. destruct (abs_acc RF_MAX RF_MAX_ABS l) with (acc := ans) as [A1 A2];
    [reflexivity|intros x acc; eexists; reflexivity|exact Hl|].
  unfold outcome. split; intros I.
  - rewrite (A1 I). reflexivity.
  - rewrite (A2 I), max_acc. cbn [rbind]. unfold RF_MAX_ABS.
    assert (P : 0 <= fold_right Z.max ans (map Z.abs l)).
    { destruct Hn as [Hn|Hn]; [pose proof (fold_max_ge (map Z.abs l) ans); lia|].
      destruct l as [|x l]; [tauto|]. cbn [map fold_right]. lia. }
    pose proof (fold_max_int l ans Ha Hl I) as F. pose proof (fold_max_ge (map Z.abs l) ans) as G.
    set (t := fold_right Z.max ans (map Z.abs l)) in *. clearbody t.
    rewrite iabs_ok; [|exact F|lia]. cbn [rbind]. rewrite Z.abs_eq by lia. f_equal.
    destruct (Z.ltb_spec ans t); lia.
Qed.

Lemma min_abs_outcome l ans : Forall in_int l -> in_int ans -> ans <> INT_MIN ->
  (In INT_MIN l -> outcome RF_MIN_ABS l ans = UB) /\
  (~ In INT_MIN l -> outcome RF_MIN_ABS l ans = Ok (fold_right Z.min ans (map Z.abs l))).
Proof.
  intros Hl Ha Hn. destruct (abs_acc RF_MIN RF_MIN_ABS l) with (acc := ans) as [A1 A2];
    [reflexivity|intros x acc; eexists; reflexivity|exact Hl|].
  unfold outcome. split; intros I.
  - rewrite (A1 I). reflexivity.
  - rewrite (A2 I), min_acc. cbn [rbind]. unfold RF_MIN_ABS.
    pose proof (fold_min_int l ans Ha) as F. pose proof (fold_min_le (map Z.abs l) ans) as G.
    assert (P : 0 <= fold_right Z.min ans (map Z.abs l) \/ fold_right Z.min ans (map Z.abs l) = ans).
    { clear. induction l as [|x l IH]; cbn [map fold_right]; [tauto|]. lia. }
    set (t := fold_right Z.min ans (map Z.abs l)) in *. clearbody t.
    rewrite iabs_ok; [|exact F|unfold in_int in *; lia]. cbn [rbind]. f_equal. rewrite Z.gtb_ltb.
    destruct (Z.ltb_spec (Z.abs t) ans); lia.
Qed.

(** ** [float] and [double] *)

Definition nneg (n : num) : num :=
  match n with NaN => NaN | MInf => PInf | Fin v => Fin (- v) | PInf => MInf end.

Lemma fnum_top E M b : 0 < E -> 0 < M -> 0 <= b < 2 ^ (E + M) -> fnum E M (b + 2 ^ (E + M)) = nneg (fnum E M b).
Proof.
  intros HE HM Hb. unfold fnum. cbv zeta.
  assert (P1 : 0 < 2 ^ E) by (apply Z.pow_pos_nonneg; lia). assert (P2 : 0 < 2 ^ M) by (apply Z.pow_pos_nonneg; lia).
  rewrite Z.pow_add_r in * by lia. set (e := 2 ^ E) in *. set (m := 2 ^ M) in *. clearbody e m.
  assert (S0 : b / (e * m) mod 2 = 0) by (rewrite Z.div_small by lia; reflexivity).
  assert (S1 : (b + e * m) / (e * m) mod 2 = 1).
  { replace (b + e * m) with (b + 1 * (e * m)) by ring. rewrite Z.div_add by nia. rewrite Z.div_small by lia. reflexivity. }
  assert (X : (b + e * m) / m mod e = b / m mod e).
  { rewrite Z.div_add by lia. rewrite <- (Z.mul_1_l e) at 1. rewrite Z.mod_add by lia. reflexivity. }
  assert (Y : (b + e * m) mod m = b mod m) by (apply Z.mod_add; lia).
  rewrite S0, S1, X, Y. change (1 =? 0) with false. change (0 =? 0) with true.
  destruct (b / m mod e =? e - 1); [destruct (b mod m =? 0); reflexivity|]. reflexivity.
Qed.

Lemma nneg_invol n : nneg (nneg n) = n.
Proof. destruct n; cbn [nneg]; try reflexivity. f_equal. ring. Qed.

Lemma fnum_flip E M b : 0 < E -> 0 < M -> 0 <= b < 2 ^ (E + M + 1) ->
  fnum E M (if b <? 2 ^ (E + M) then b + 2 ^ (E + M) else b - 2 ^ (E + M)) = nneg (fnum E M b).
Proof.
  intros HE HM Hb. destruct (Z.ltb_spec b (2 ^ (E + M))) as [L|L].
  - apply fnum_top; lia.
  - rewrite (Z.pow_add_r 2 (E + M) 1) in Hb by lia. change (2 ^ 1) with 2 in Hb.
    rewrite <- (nneg_invol (fnum E M (b - 2 ^ (E + M)))). f_equal.
    rewrite <- fnum_top by lia. f_equal. ring.
Qed.

Lemma fval_neg t x : fpattern t x -> fval t (fneg t x) = nneg (fval t x).
Proof.
  intros H. destruct t; unfold fval, fneg, num32, num64, fbits in *; cbv zeta.
  - apply (fnum_flip 8 23); [lia|lia|exact H].
  - apply (fnum_flip 11 52); [lia|lia|exact H].
Qed.

Lemma fval_abs t x : fpattern t x -> fval t (fabs t x) = nabs (fval t x).
Proof.
  intros H. unfold fabs, fnonneg. pose proof (fval_neg t x H) as N. destruct (fval t x) as [| |v|] eqn:E.
  - rewrite N. reflexivity.
  - cbn [num_lt negb]. rewrite N. reflexivity.
  - cbn [num_lt]. destruct (Z.ltb_spec v 0); cbn [negb]; [rewrite N|rewrite E]; cbn [nneg nabs]; f_equal; lia.
  - cbn [num_lt negb]. rewrite E. reflexivity.
Qed.

(** The greatest value so far; the values whose number is NaN are passed over. *)
Section PICK.
Context (val : Z -> num) (view : Z -> Z) (lt : num -> num -> bool) (le : num -> num -> Prop).
Context (lt_nan : forall x y, lt x y = true -> x <> NaN /\ y <> NaN).
Context (le_refl : forall x, x <> NaN -> le x x).
Context (le_tr : forall x y z, le x y -> le y z -> le x z).
Context (lt_le : forall x y, lt x y = true -> le x y).
Context (nlt_le : forall x y, x <> NaN -> y <> NaN -> lt x y = false -> le y x).

Definition pick (x xx : Z) : res Z := Ok (if lt (val xx) (val (view x)) then view x else xx).

Lemma pick_nan l a : val a = NaN -> accumulate pick l a = Ok a.
Proof.
  intros H. induction l as [|x l IH]; cbn [accumulate]; [reflexivity|]. unfold pick at 1.
  destruct (lt (val a) (val (view x))) eqn:E; [destruct (lt_nan _ _ E); congruence|]. cbn [rbind]. exact IH.
Qed.

Lemma pick_best l : forall a, val a <> NaN ->
  exists v, accumulate pick l a = Ok v /\ In v (a :: map view l) /\ val v <> NaN /\ le (val a) (val v) /\
            Forall (fun x => val (view x) <> NaN -> le (val (view x)) (val v)) l.
Proof.
  induction l as [|x l IH]; intros a Ha; cbn [accumulate map].
  - exists a. split; [reflexivity|]. split; [left; reflexivity|]. split; [exact Ha|]. split; [apply le_refl; exact Ha|constructor].
  - unfold pick at 1. cbn [rbind]. destruct (lt (val a) (val (view x))) eqn:E.
    + destruct (lt_nan _ _ E) as [_ N]. destruct (IH (view x) N) as (v & A & B & C & D & F).
      exists v. split; [exact A|]. split; [destruct B as [<-|B]; [right; left; reflexivity|right; right; exact B]|].
      split; [exact C|]. split; [eapply le_tr; [apply lt_le; exact E|exact D]|]. constructor; [intros _; exact D|exact F].
    + destruct (IH a Ha) as (v & A & B & C & D & F).
      exists v. split; [exact A|]. split; [destruct B as [<-|B]; [left; reflexivity|right; right; exact B]|].
      split; [exact C|]. split; [exact D|]. constructor; [|exact F].
      intros N. eapply le_tr; [apply nlt_le; [| |exact E]; assumption|exact D].
Qed.

Lemma pick_outcome l a : val a <> NaN -> (forall v, In v (a :: map view l) -> val v <> NaN -> le (val a) (val v) -> view v = v) ->
  exists v, outcome pick l a = Ok v /\ In v (a :: map view l) /\ val v <> NaN /\ le (val a) (val v) /\
            Forall (fun x => val (view x) <> NaN -> le (val (view x)) (val v)) l.
Proof.
  intros Ha Hv. destruct (pick_best l a Ha) as (v & A & B & C & D & F). unfold outcome. rewrite A. cbn [rbind].
  unfold pick. rewrite (Hv v B C D). destruct (lt (val a) (val v)) eqn:E.
  - exists v. auto.
  - exists a. split; [reflexivity|]. split; [left; reflexivity|]. split; [exact Ha|]. split; [apply le_refl; exact Ha|].
    eapply Forall_impl; [|exact F]. cbn beta. intros x G N. eapply le_tr; [exact (G N)|]. apply nlt_le; assumption.
Qed.
End PICK.

Definition num_ge (x y : num) : Prop := num_le y x.
Definition num_gt (x y : num) : bool := num_lt y x.

Lemma lt_nan x y : num_lt x y = true -> x <> NaN /\ y <> NaN.
Proof. destruct x, y; cbn [num_lt]; intros H; try discriminate H; split; discriminate. Qed.
Lemma gt_nan x y : num_gt x y = true -> x <> NaN /\ y <> NaN.
Proof. intros H. destruct (lt_nan _ _ H). tauto. Qed.
Lemma ge_trans x y z : num_ge x y -> num_ge y z -> num_ge x z.
Proof. unfold num_ge. intros A B. eapply num_le_trans; eassumption. Qed.
Lemma gt_ge x y : num_gt x y = true -> num_ge x y.
Proof. apply num_lt_le'. Qed.
Lemma ngt_ge x y : x <> NaN -> y <> NaN -> num_gt x y = false -> num_ge y x.
Proof. intros A B C. apply num_lt_le; assumption. Qed.

(** Both directions with the second use of the initial value. *)
Lemma max_best t l ans : fval t ans <> NaN ->
  exists v, outcome (RF_MAX_fp t) l ans = Ok v /\ In v (ans :: l) /\ greatest (fval t v) (map (fval t) (ans :: l)).
Proof.
  intros Ha. destruct (pick_outcome (fval t) (fun x => x) num_lt num_le lt_nan num_le_refl num_le_trans num_lt_le' num_lt_le l ans Ha)
    as (v & A & B & C & D & F); [reflexivity|]. rewrite map_id in B.
  exists v. split; [exact A|]. split; [exact B|]. split; [exact C|]. split; [apply in_map; exact B|].
  cbn [map]. constructor; [intros _; exact D|]. apply Forall_map. exact F.
Qed.
Lemma min_best t l ans : fval t ans <> NaN ->
  exists v, outcome (RF_MIN_fp t) l ans = Ok v /\ In v (ans :: l) /\ least (fval t v) (map (fval t) (ans :: l)).
Proof.
  intros Ha. destruct (pick_outcome (fval t) (fun x => x) num_gt num_ge gt_nan num_le_refl ge_trans gt_ge ngt_ge l ans Ha)
    as (v & A & B & C & D & F); [reflexivity|]. rewrite map_id in B.
  exists v. split; [exact A|]. split; [exact B|]. split; [exact C|]. split; [apply in_map; exact B|].
  cbn [map]. constructor; [intros _; exact D|]. apply Forall_map. exact F.
Qed.

Lemma nonneg_view t v : num_le (Fin 0) (fval t v) -> fabs t v = v.
Proof.
  unfold fabs, fnonneg. destruct (fval t v) as [| |x|]; cbn [num_le num_lt negb]; intros H; try contradiction; try reflexivity.
  destruct (Z.ltb_spec x 0); [lia|reflexivity].
Qed.
Lemma nabs_nonneg n : n <> NaN -> num_le (Fin 0) (nabs n).
Proof. destruct n; cbn [nabs num_le]; intros H; try tauto. lia. Qed.
Lemma nabs_nan n : nabs n <> NaN -> n <> NaN.
Proof. intros H ->. apply H. reflexivity. Qed.

Lemma abs_nonneg_in t l ans v : Forall (fpattern t) l -> num_le (Fin 0) (fval t ans) ->
  In v (ans :: map (fabs t) l) -> fval t v <> NaN -> num_le (Fin 0) (fval t v).
Proof.
  intros Hl Ha [<-|H] N; [exact Ha|]. apply in_map_iff in H. destruct H as (x & <- & H).
  rewrite Forall_forall in Hl. rewrite (fval_abs t x (Hl _ H)) in *. apply nabs_nonneg. apply nabs_nan. exact N.
Qed.

Lemma in_abs t l ans v : Forall (fpattern t) l -> In v (ans :: map (fabs t) l) ->
  In (fval t v) (fval t ans :: map (fun x => nabs (fval t x)) l).
Proof.
  intros Hl [<-|H]; [left; reflexivity|]. right. apply in_map_iff in H. destruct H as (x & <- & H).
  rewrite Forall_forall in Hl. rewrite (fval_abs t x (Hl _ H)). apply (in_map (fun x => nabs (fval t x))). exact H.
Qed.

Lemma forall_abs t l (P : num -> Prop) : Forall (fpattern t) l ->
  Forall (fun x => P (fval t (fabs t x))) l -> Forall P (map (fun x => nabs (fval t x)) l).
Proof.
  intros Hl H. apply Forall_map. rewrite Forall_forall in *. intros x Hx. rewrite <- (fval_abs t x (Hl _ Hx)). apply H. exact Hx.
Qed.

Lemma nn_not_nan n : num_le (Fin 0) n -> n <> NaN.
Proof. intros H ->. exact H. Qed.

Lemma max_abs_best t l ans : Forall (fpattern t) l -> num_le (Fin 0) (fval t ans) ->
  exists v, outcome (RF_MAX_ABS_fp t) l ans = Ok v /\
            greatest (fval t v) (fval t ans :: map (fun x => nabs (fval t x)) l).
Proof.
  intros Hl Ha. pose proof (nn_not_nan _ Ha) as N.
  destruct (pick_outcome (fval t) (fabs t) num_lt num_le lt_nan num_le_refl num_le_trans num_lt_le' num_lt_le l ans N)
    as (v & A & B & C & D & F).
  { intros v I V _. apply nonneg_view. eapply abs_nonneg_in; eassumption. }
  exists v. split; [exact A|]. split; [exact C|]. split; [apply in_abs; assumption|].
  constructor; [intros _; exact D|]. apply (forall_abs t l (fun m => m <> NaN -> num_le m (fval t v))); assumption.
Qed.
Lemma min_abs_best t l ans : Forall (fpattern t) l -> num_le (Fin 0) (fval t ans) ->
  exists v, outcome (RF_MIN_ABS_fp t) l ans = Ok v /\
            least (fval t v) (fval t ans :: map (fun x => nabs (fval t x)) l).
Proof.
  intros Hl Ha. pose proof (nn_not_nan _ Ha) as N.
  destruct (pick_outcome (fval t) (fabs t) num_gt num_ge gt_nan num_le_refl ge_trans gt_ge ngt_ge l ans N)
    as (v & A & B & C & D & F).
  { intros v I V _. apply nonneg_view. eapply abs_nonneg_in; eassumption. }
  exists v. split; [exact A|]. split; [exact C|]. split; [apply in_abs; assumption|].
  constructor; [intros _; exact D|]. apply (forall_abs t l (fun m => m <> NaN -> num_le (fval t v) m)); assumption.
Qed.

(** An initial value that is NaN stays. *)
Lemma nan_outcome t l ans : fval t ans = NaN ->
  outcome (RF_MAX_fp t) l ans = Ok ans /\ outcome (RF_MIN_fp t) l ans = Ok ans /\
  outcome (RF_MAX_ABS_fp t) l ans = Ok ans /\ outcome (RF_MIN_ABS_fp t) l ans = Ok ans.
Proof.
  intros H. unfold outcome.
  assert (G : forall view lt, (forall x y, lt x y = true -> x <> NaN /\ y <> NaN) ->
            (let* r := accumulate (pick (fval t) view lt) l ans in pick (fval t) view lt r ans) = Ok ans).
  { intros view lt L. rewrite (pick_nan (fval t) view lt L l ans H). cbn [rbind]. unfold pick.
    destruct (lt (fval t ans) (fval t (view ans))) eqn:E; [destruct (L _ _ E); congruence|reflexivity]. }
  split; [exact (G (fun x => x) num_lt lt_nan)|]. split; [exact (G (fun x => x) num_gt gt_nan)|].
  split; [exact (G (fabs t) num_lt lt_nan)|exact (G (fabs t) num_gt gt_nan)].
Qed.

(** ** Any order *)

Lemma num_le_antisym x y : num_le x y -> num_le y x -> x = y.
Proof. destruct x, y; cbn [num_le]; intros A B; try tauto. f_equal. lia. Qed.
Lemma greatest_unique n n' l l' : Permutation l l' -> greatest n l -> greatest n' l' -> n = n'.
Proof.
  intros P (A & B & C) (A' & B' & C'). rewrite Forall_forall in C, C'. apply num_le_antisym.
  - apply C'; [|exact A]. eapply Permutation_in; eassumption.
  - apply C; [|exact A']. eapply Permutation_in; [apply Permutation_sym|]; eassumption.
Qed.
Lemma least_unique n n' l l' : Permutation l l' -> least n l -> least n' l' -> n = n'.
Proof.
  intros P (A & B & C) (A' & B' & C'). rewrite Forall_forall in C, C'. apply num_le_antisym.
  - apply C; [|exact A']. eapply Permutation_in; [apply Permutation_sym|]; eassumption.
  - apply C'; [|exact A]. eapply Permutation_in; eassumption.
Qed.

Lemma zsum_perm l l' : Permutation l l' -> zsum l = zsum l'.
Proof. unfold zsum. induction 1; cbn [fold_right]; lia. Qed.
Lemma zprod_perm l l' : Permutation l l' -> zprod l = zprod l'.
Proof. unfold zprod. induction 1; cbn [fold_right]; [reflexivity|rewrite IHPermutation; reflexivity|ring|congruence]. Qed.
Lemma fold_max_perm a l l' : Permutation l l' -> fold_right Z.max a l = fold_right Z.max a l'.
Proof. induction 1; cbn [fold_right]; lia. Qed.
Lemma fold_min_perm a l l' : Permutation l l' -> fold_right Z.min a l = fold_right Z.min a l'.
Proof. induction 1; cbn [fold_right]; lia. Qed.

(** ** The theorems *)

Section CALL.
Context {S : Type} (s : S).

Lemma call_sum ans vals call : in_int ans -> reduction RF_SUM ans s vals call ->
  (sums_fit ans vals -> call s = Ret s (ans + zsum vals + ans)) /\ (~ sums_fit ans vals -> call s = Undef).
Proof.
  intros Ha H. rewrite (reduction_outcome _ _ _ _ _ H). destruct (sum_outcome ans vals Ha) as [A B].
  split; intros F; [rewrite (A F)|rewrite (B F)]; reflexivity.
Qed.
Lemma call_prod ans vals call : in_int ans -> reduction RF_PRO ans s vals call ->
  (products_fit ans vals -> call s = Ret s (ans * zprod vals * ans)) /\ (~ products_fit ans vals -> call s = Undef).
Proof.
  intros Ha H. rewrite (reduction_outcome _ _ _ _ _ H). destruct (prod_outcome ans vals Ha) as [A B].
  split; intros F; [rewrite (A F)|rewrite (B F)]; reflexivity.
Qed.
Lemma call_sum_abs ans vals call : 0 <= ans <= INT_MAX -> Forall in_int vals -> reduction RF_SUM_ABS ans s vals call ->
  call s = if ans + zsum (map Z.abs vals) + ans <=? INT_MAX then Ret s (ans + zsum (map Z.abs vals) + ans) else Undef.
Proof.
  intros Ha Hl H. rewrite (reduction_outcome _ _ _ _ _ H), sum_abs_outcome by assumption.
  destruct (_ <=? _); reflexivity.
Qed.
Lemma call_prod_abs ans vals call : 0 <= ans <= INT_MAX -> Forall in_int vals -> reduction RF_PRO_ABS ans s vals call ->
  let fit := ~ In INT_MIN vals /\ products_fit ans (map Z.abs vals) in
  (fit -> call s = Ret s (ans * zprod (map Z.abs vals) * ans)) /\ (~ fit -> call s = Undef).
Proof.
  intros Ha Hl H. cbv zeta. rewrite (reduction_outcome _ _ _ _ _ H). destruct (prod_abs_outcome ans vals Hl Ha) as [A B].
  split; intros F; [rewrite (A F)|rewrite (B F)]; reflexivity.
Qed.
Lemma call_extremes ans vals :
  (forall call, reduction RF_MAX ans s vals call -> call s = Ret s (fold_right Z.max ans vals)) /\
  (forall call, reduction RF_MIN ans s vals call -> call s = Ret s (fold_right Z.min ans vals)).
Proof.
  split; intros call H; rewrite (reduction_outcome _ _ _ _ _ H); [rewrite max_outcome|rewrite min_outcome]; reflexivity.
Qed.
Lemma call_extremes_abs ans vals : in_int ans -> Forall in_int vals ->
  (forall call, reduction RF_MAX_ABS ans s vals call -> 0 <= ans \/ vals <> [] ->
     (In INT_MIN vals -> call s = Undef) /\
     (~ In INT_MIN vals -> call s = Ret s (fold_right Z.max ans (map Z.abs vals)))) /\
  (forall call, reduction RF_MIN_ABS ans s vals call -> ans <> INT_MIN ->
     (In INT_MIN vals -> call s = Undef) /\
     (~ In INT_MIN vals -> call s = Ret s (fold_right Z.min ans (map Z.abs vals)))).
Proof.
  intros Ha Hl. split; intros call H Hn; rewrite (reduction_outcome _ _ _ _ _ H).
  - destruct (max_abs_outcome vals ans Hl Ha Hn) as [A B]. split; intros F; [rewrite (A F)|rewrite (B F)]; reflexivity.
  - destruct (min_abs_outcome vals ans Hl Ha Hn) as [A B]. split; intros F; [rewrite (A F)|rewrite (B F)]; reflexivity.
Qed.

Lemma call_fp t ans vals : fval t ans <> NaN ->
  (forall call, reduction (RF_MAX_fp t) ans s vals call ->
     exists v, call s = Ret s v /\ In v (ans :: vals) /\ greatest (fval t v) (map (fval t) (ans :: vals))) /\
  (forall call, reduction (RF_MIN_fp t) ans s vals call ->
     exists v, call s = Ret s v /\ In v (ans :: vals) /\ least (fval t v) (map (fval t) (ans :: vals))).
Proof.
  intros Ha. split; intros call H.
  - destruct (max_best t vals ans Ha) as (v & A & B). exists v. rewrite (reduction_outcome _ _ _ _ _ H), A. auto.
  - destruct (min_best t vals ans Ha) as (v & A & B). exists v. rewrite (reduction_outcome _ _ _ _ _ H), A. auto.
Qed.
Lemma call_fp_abs t ans vals : Forall (fpattern t) vals -> num_le (Fin 0) (fval t ans) ->
  (forall call, reduction (RF_MAX_ABS_fp t) ans s vals call ->
     exists v, call s = Ret s v /\ greatest (fval t v) (fval t ans :: map (fun x => nabs (fval t x)) vals)) /\
  (forall call, reduction (RF_MIN_ABS_fp t) ans s vals call ->
     exists v, call s = Ret s v /\ least (fval t v) (fval t ans :: map (fun x => nabs (fval t x)) vals)).
Proof.
  intros Hl Ha. split; intros call H.
  - destruct (max_abs_best t vals ans Hl Ha) as (v & A & B). exists v. rewrite (reduction_outcome _ _ _ _ _ H), A. auto.
  - destruct (min_abs_best t vals ans Hl Ha) as (v & A & B). exists v. rewrite (reduction_outcome _ _ _ _ _ H), A. auto.
Qed.
Lemma call_fp_nan t ans vals reduce call : fval t ans = NaN ->
  In reduce [RF_MAX_fp t; RF_MIN_fp t; RF_MAX_ABS_fp t; RF_MIN_ABS_fp t] ->
  reduction reduce ans s vals call -> call s = Ret s ans.
Proof.
  intros Ha I H. rewrite (reduction_outcome _ _ _ _ _ H). destruct (nan_outcome t vals ans Ha) as (A & B & C & D).
  destruct I as [<-|[<-|[<-|[<-|[]]]]]; [rewrite A|rewrite B|rewrite C|rewrite D]; reflexivity.
Qed.
End CALL.

Lemma result_of {S} (s : S) (call : M S Z) (fit : Prop) x v :
  (fit -> call s = Ret s x) -> (~ fit -> call s = Undef) -> result call s = Some v -> v = x.
Proof.
  intros A B. unfold result. destruct (Z.eq_dec v x) as [E|E]; [intros _; exact E|].
  intros H. exfalso. assert (N : ~ fit). { intros F. rewrite (A F) in H. congruence. }
  rewrite (B N) in H. discriminate H.
Qed.
Lemma result_ret {S} (s : S) (call : M S Z) x v : call s = Ret s x -> result call s = Some v -> v = x.
Proof. unfold result. intros ->. congruence. Qed.

Lemma order_int {S S'} reduce ans vals vals' (s : S) (s' : S') call call' v v' :
  In reduce [RF_SUM; RF_SUM_ABS; RF_PRO; RF_PRO_ABS; RF_MAX; RF_MAX_ABS; RF_MIN; RF_MIN_ABS] ->
  0 <= ans <= INT_MAX -> Forall in_int vals -> Permutation vals vals' ->
  reduction reduce ans s vals call -> reduction reduce ans s' vals' call' ->
  result call s = Some v -> result call' s' = Some v' -> v = v'.
Proof.
  intros I Ha Hl P R R' E E'. assert (Hi : in_int ans) by (unfold in_int; lia).
  assert (Hl' : Forall in_int vals') by (eapply Permutation_Forall; eassumption).
  pose proof (Permutation_map Z.abs P) as Q.
  destruct I as [<-|[<-|[<-|[<-|[<-|[<-|[<-|[<-|[]]]]]]]]].
  - destruct (call_sum s ans vals call Hi R) as [A B], (call_sum s' ans vals' call' Hi R') as [A' B'].
    rewrite (result_of _ _ _ _ _ A B E), (result_of _ _ _ _ _ A' B' E'), (zsum_perm _ _ P). reflexivity.
  - pose proof (call_sum_abs s ans vals call Ha Hl R) as A. pose proof (call_sum_abs s' ans vals' call' Ha Hl' R') as A'.
    unfold result in E, E'. rewrite A in E. rewrite A' in E'. rewrite (zsum_perm _ _ Q) in E.
    destruct (_ <=? _); congruence.
  - destruct (call_prod s ans vals call Hi R) as [A B], (call_prod s' ans vals' call' Hi R') as [A' B'].
    rewrite (result_of _ _ _ _ _ A B E), (result_of _ _ _ _ _ A' B' E'), (zprod_perm _ _ P). reflexivity.
  - destruct (call_prod_abs s ans vals call Ha Hl R) as [A B], (call_prod_abs s' ans vals' call' Ha Hl' R') as [A' B'].
    rewrite (result_of _ _ _ _ _ A B E), (result_of _ _ _ _ _ A' B' E'), (zprod_perm _ _ Q). reflexivity.
  - rewrite (result_ret _ _ _ _ (proj1 (call_extremes s ans vals) _ R) E), (result_ret _ _ _ _ (proj1 (call_extremes s' ans vals') _ R') E').
    apply fold_max_perm. exact P.
  - destruct (proj1 (call_extremes_abs s ans vals Hi Hl) _ R (or_introl (proj1 Ha))) as [A B].
    destruct (proj1 (call_extremes_abs s' ans vals' Hi Hl') _ R' (or_introl (proj1 Ha))) as [A' B'].
    destruct (in_dec Z.eq_dec INT_MIN vals) as [J|J]; [unfold result in E; rewrite (A J) in E; discriminate E|].
    destruct (in_dec Z.eq_dec INT_MIN vals') as [J'|J']; [unfold result in E'; rewrite (A' J') in E'; discriminate E'|].
    rewrite (result_ret _ _ _ _ (B J) E), (result_ret _ _ _ _ (B' J') E'). apply fold_max_perm. exact Q.
  - rewrite (result_ret _ _ _ _ (proj2 (call_extremes s ans vals) _ R) E), (result_ret _ _ _ _ (proj2 (call_extremes s' ans vals') _ R') E').
    apply fold_min_perm. exact P.
  - destruct (proj2 (call_extremes_abs s ans vals Hi Hl) _ R ltac:(lia)) as [A B].
    destruct (proj2 (call_extremes_abs s' ans vals' Hi Hl') _ R' ltac:(lia)) as [A' B'].
    destruct (in_dec Z.eq_dec INT_MIN vals) as [J|J]; [unfold result in E; rewrite (A J) in E; discriminate E|].
    destruct (in_dec Z.eq_dec INT_MIN vals') as [J'|J']; [unfold result in E'; rewrite (A' J') in E'; discriminate E'|].
    rewrite (result_ret _ _ _ _ (B J) E), (result_ret _ _ _ _ (B' J') E'). apply fold_min_perm. exact Q.
Qed.

Lemma order_fp {S S'} t reduce ans vals vals' (s : S) (s' : S') call call' v v' :
  In reduce [RF_MAX_fp t; RF_MIN_fp t] /\ fval t ans <> NaN \/
  In reduce [RF_MAX_ABS_fp t; RF_MIN_ABS_fp t] /\ num_le (Fin 0) (fval t ans) ->
  Forall (fpattern t) vals -> Permutation vals vals' ->
  reduction reduce ans s vals call -> reduction reduce ans s' vals' call' ->
  result call s = Some v -> result call' s' = Some v' -> fval t v = fval t v'.
Proof.
  intros I Hl P R R' E E'. assert (Hl' : Forall (fpattern t) vals') by (eapply Permutation_Forall; eassumption).
  pose proof (perm_skip (fval t ans) (Permutation_map (fun x => nabs (fval t x)) P)) as Q.
  pose proof (Permutation_map (fval t) (perm_skip ans P)) as Q'.
  destruct I as [[[<-|[<-|[]]] Ha]|[[<-|[<-|[]]] Ha]].
  - destruct (proj1 (call_fp s t ans vals Ha) _ R) as (w & A & _ & G), (proj1 (call_fp s' t ans vals' Ha) _ R') as (w' & A' & _ & G').
    rewrite (result_ret _ _ _ _ A E), (result_ret _ _ _ _ A' E'). eapply greatest_unique; eassumption.
  - destruct (proj2 (call_fp s t ans vals Ha) _ R) as (w & A & _ & G), (proj2 (call_fp s' t ans vals' Ha) _ R') as (w' & A' & _ & G').
    rewrite (result_ret _ _ _ _ A E), (result_ret _ _ _ _ A' E'). eapply least_unique; eassumption.
  - destruct (proj1 (call_fp_abs s t ans vals Hl Ha) _ R) as (w & A & G), (proj1 (call_fp_abs s' t ans vals' Hl' Ha) _ R') as (w' & A' & G').
    rewrite (result_ret _ _ _ _ A E), (result_ret _ _ _ _ A' E'). exact (greatest_unique _ _ _ _ Q G G').
  - destruct (proj2 (call_fp_abs s t ans vals Hl Ha) _ R) as (w & A & G), (proj2 (call_fp_abs s' t ans vals' Hl' Ha) _ R') as (w' & A' & G').
    rewrite (result_ret _ _ _ _ A E), (result_ret _ _ _ _ A' E'). exact (least_unique _ _ _ _ Q G G').
Qed.
