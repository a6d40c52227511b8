(** Lemmas for C68: what read_xml makes of any document. *)

From Coq Require Import ZArith Ascii String List Bool Lia Sorted.
From Verif Require Import Base M_Bytes M_TecZone M_TecFile Spec_Loop Spec_Tec Spec_Plt Spec_Aux Spec_Xml Spec_Doc L_Base L_Loop L_TecZone L_TecMin L_Text L_Plt
  L_TecWrite L_TecFile L_TecText L_TecWhole L_TecProp L_Aux L_ReadLog
  M_Scan M_Xml M_ReadXml L_Scan L_ScanF L_Near L_Xml L_XmlSeq L_XmlText L_XmlLog.
Import ListNotations.
Open Scope string_scope.
Open Scope list_scope.
Open Scope Z_scope.

(** ** Results *)

Lemma bind_ok {A B} (r : res A) (k : A -> res B) b : rbind r k = Ok b <-> exists a, r = Ok a /\ k a = Ok b.
Proof.
  destruct r as [a|e|]; cbn [rbind]; split.
  - intros H. eauto.
  - intros (a' & [= ->] & H). exact H.
  - discriminate.
  - intros (a' & H & _). discriminate H.
  - discriminate.
  - intros (a' & H & _). discriminate H.
Qed.
Definition nerr {A} (r : res A) : Prop := forall e, r <> Err e.
Lemma nerr_bind {A B} (r : res A) (k : A -> res B) : nerr r -> (forall a, nerr (k a)) -> nerr (rbind r k).
Proof. intros H1 H2. destruct r as [a|e|]; cbn; [apply H2|destruct (H1 e eq_refl)|discriminate]. Qed.
Lemma map_res_ok {A B} (f : A -> res B) (R : A -> B -> Prop) : (forall a b, f a = Ok b <-> R a b) ->
  forall l m, map_res f l = Ok m <-> Forall2 R l m.
Proof.
  intros Hf. induction l as [|a l IH]; intros m; cbn [map_res].
  - split; [intros [= <-]; constructor|intros H; inversion H; reflexivity].
  - rewrite bind_ok. split.
    + intros (b & E & H). apply bind_ok in H. destruct H as (r & Er & [= <-]). constructor; [now apply Hf|now apply IH].
    + intros H. inversion H as [|? b ? r H1 H2]; subst. exists b. split; [now apply Hf|]. apply bind_ok. exists r. split; [now apply IH|reflexivity].
Qed.
Lemma nerr_map {A B} (f : A -> res B) : (forall a, nerr (f a)) -> forall l, nerr (map_res f l).
Proof. intros Hf. induction l as [|a l IH]; cbn [map_res]; [discriminate|]. apply nerr_bind; [apply Hf|]. intros b. apply nerr_bind; [exact IH|]. discriminate. Qed.

(** ** Elements and attributes *)

Lemma find_first (l : list node) name c : List.find (fun m => String.eqb (name_of m) name) l = Some c <->
  exists l1 l2, l = l1 ++ c :: l2 /\ name_of c = name /\ Forall (fun d => name_of d <> name) l1.
Proof.
  induction l as [|d l IH]; cbn [List.find].
  - split; [discriminate|]. intros ([|? ?] & ? & H & _); discriminate H.
  - destruct (String.eqb_spec (name_of d) name) as [E|E].
    + split; [intros [= <-]; exists [], l; auto|]. intros ([|d' l1] & l2 & H & Hn & HF); injection H as <- H; [reflexivity|].
      inversion HF; subst. contradiction.
    + rewrite IH. split; intros (l1 & l2 & H & Hn & HF).
      * exists (d :: l1), l2. subst. auto.
      * destruct l1 as [|d' l1]; injection H as <- H; [contradiction|]. inversion HF; subst. eauto.
Qed.
Lemma child_first n name c : child n name = Some c <-> first_kid n name c.
Proof. apply find_first. Qed.
Lemma need_ok n name c : need n name = Ok c <-> first_kid n name c.
Proof. rewrite <- child_first. unfold need. destruct (child n name); split; congruence. Qed.
Lemma nerr_need n name : nerr (need n name).
Proof. unfold need. destruct (child n name); discriminate. Qed.
Lemma get_text_holds c t : get_text c = Some t <-> holds_text c t.
Proof.
  unfold get_text, holds_text. destruct (kids c) as [|[] l]; split; try discriminate; try (intros (b' & l' & H); discriminate H).
  - intros [= <-]. eauto.
  - intros (b' & l' & H). congruence.
Qed.
Lemma get_text_none c : get_text c = None <-> forall t, ~ holds_text c t.
Proof.
  split.
  - intros H t Ht. apply get_text_holds in Ht. congruence.
  - intros H. destruct (get_text c) as [t|] eqn:E; [|reflexivity]. apply get_text_holds in E. now destruct (H t).
Qed.
Lemma attr_ok n name t : attribute (attrs n) name = Some t <-> has_attr n name t.
Proof.
  unfold has_attr. induction (attrs n) as [|[k v] l IH]; cbn [attribute].
  - split; [discriminate|]. intros ([|? ?] & ? & H & _); discriminate H.
  - destruct (String.eqb_spec k name) as [->|E].
    + split; [intros [= <-]; exists [], l; auto|]. intros ([|d' l1] & l2 & H & HF); injection H as <- H; [congruence|].
      inversion HF; subst. cbn [fst] in *. contradiction.
    + rewrite IH. split; intros (l1 & l2 & H & HF).
      * exists ((k, v) :: l1), l2. subst. auto.
      * destruct l1 as [|d' l1]; injection H as <- H; [congruence|]. inversion HF; subst. eauto.
Qed.
Lemma str_ok o t : str o = Ok t <-> o = Some t.
Proof. destruct o; cbn; split; congruence. Qed.
Lemma assigned_ok {A} (o : option A) x : assigned o = Ok x <-> o = Some x.
Proof. destruct o; cbn; split; congruence. Qed.
Lemma nerr_str o : nerr (str o).
Proof. destruct o; discriminate. Qed.
Lemma nerr_assigned {A} (o : option A) : nerr (assigned o).
Proof. destruct o; discriminate. Qed.
Lemma keep_none {A} (o : option A) : keep None o = assigned o.
Proof. destruct o; reflexivity. Qed.

Lemma text_of_ok n name t : text_of n name = Ok t <-> text_at n name t.
Proof.
  unfold text_of, text_at. rewrite bind_ok. split; intros (c & H1 & H2); exists c.
  - split; [now apply need_ok|]. now apply get_text_holds, str_ok.
  - split; [now apply need_ok|]. now apply str_ok, get_text_holds.
Qed.
Lemma nerr_text_of n name : nerr (text_of n name).
Proof. apply nerr_bind; [apply nerr_need|]. intros. apply nerr_str. Qed.

(** ** Numbers *)

Lemma ck_iff v z : ck v = Ok z <-> v = z /\ in_int z.
Proof.
  unfold ck, in_intb, in_int. destruct ((INT_MIN <=? v) && (v <=? INT_MAX)) eqn:E.
  - apply andb_true_iff in E. rewrite !Z.leb_le in E. split; [intros [= <-]; auto|intros [-> _]; reflexivity].
  - split; [discriminate|]. intros [-> [H1 H2]]. apply Z.leb_le in H1, H2. rewrite H1, H2 in E. discriminate E.
Qed.
Lemma nerr_scan t : nerr (scan_int t).
Proof. unfold scan_int. destruct (decimal t); [|discriminate]. unfold ck. destruct (in_intb z); discriminate. Qed.
Lemma scan_some t z : scan_int t = Ok (Some z) <-> int_text t z.
Proof.
  unfold scan_int, int_text. destruct (decimal t) as [v|]; [|split; [discriminate|intros [H _]; discriminate H]].
  rewrite bind_ok. split.
  - intros (v' & H & [= ->]). apply ck_iff in H. destruct H as [-> H]. auto.
  - intros [[= ->] H]. exists z. split; [now apply ck_iff|reflexivity].
Qed.
Lemma scan_none t : scan_int t = Ok None <-> decimal t = None.
Proof.
  unfold scan_int. destruct (decimal t) as [v|]; [|tauto]. split; [|discriminate]. intros H. apply bind_ok in H. destruct H as (? & _ & H). discriminate H.
Qed.
Lemma q_int_some c z : q_int_text c = Ok (Some z) <-> exists t, holds_text c t /\ int_text t z.
Proof.
  unfold q_int_text. destruct (get_text c) as [t|] eqn:E.
  - apply get_text_holds in E. rewrite scan_some. split; [eauto|]. intros (t' & H & Hz). apply get_text_holds in E, H. congruence.
  - split; [discriminate|]. intros (t & H & _). apply get_text_none with (t := t) in E. contradiction.
Qed.
Lemma q_int_none c : q_int_text c = Ok None <-> forall t, holds_text c t -> decimal t = None.
Proof.
  unfold q_int_text. destruct (get_text c) as [t|] eqn:E.
  - apply get_text_holds in E. rewrite scan_none. split; [|auto]. intros H t' H'. apply get_text_holds in E, H'. congruence.
  - split; [|reflexivity]. intros _ t H. apply get_text_none with (t := t) in E. contradiction.
Qed.
Lemma q_double_some c x : q_double_text c = Some x <-> exists t, holds_text c t /\ scan_double t = Some x.
Proof.
  unfold q_double_text. destruct (get_text c) as [t|] eqn:E.
  - apply get_text_holds in E. split; [eauto|]. intros (t' & H & Hz). apply get_text_holds in E, H. congruence.
  - split; [discriminate|]. intros (t & H & _). apply get_text_none with (t := t) in E. contradiction.
Qed.
Lemma q_double_none c : q_double_text c = None <-> forall t, holds_text c t -> scan_double t = None.
Proof.
  unfold q_double_text. destruct (get_text c) as [t|] eqn:E.
  - apply get_text_holds in E. split; [|auto]. intros H t' H'. apply get_text_holds in E, H'. congruence.
  - split; [|reflexivity]. intros _ t H. apply get_text_none with (t := t) in E. contradiction.
Qed.
Lemma nerr_q_int c : nerr (q_int_text c).
Proof. unfold q_int_text. destruct (get_text c); [apply nerr_scan|discriminate]. Qed.

Lemma int_need n name z : (let* c := need n name in let* o := q_int_text c in assigned o) = Ok z <-> int_at n name z.
Proof.
  unfold int_at, text_at. rewrite bind_ok. split.
  - intros (c & H1 & H2). apply bind_ok in H2. destruct H2 as (o & H2 & H3). apply assigned_ok in H3. subst o. apply q_int_some in H2.
    destruct H2 as (t & H2 & H3). apply need_ok in H1. eauto.
  - intros (t & (c & H1 & H2) & H3). exists c. split; [now apply need_ok|]. apply bind_ok. exists (Some z). split; [apply q_int_some; eauto|reflexivity].
Qed.
Lemma int_of_ok n name z : int_of n name None = Ok z <-> int_at n name z.
Proof.
  rewrite <- int_need. unfold int_of. destruct (need n name); cbn [rbind]; tauto.
Qed.
Lemma nerr_int_of n name d : nerr (int_of n name d).
Proof. apply nerr_bind; [apply nerr_need|]. intros c. apply nerr_bind; [apply nerr_q_int|]. intros [z|]; [discriminate|apply nerr_assigned]. Qed.
Lemma double_of_ok n name x : double_of n name None = Ok x <-> double_at n name x.
Proof.
  unfold double_of, double_at, text_at. rewrite bind_ok. split.
  - intros (c & H1 & H2). rewrite keep_none in H2. apply assigned_ok, q_double_some in H2. destruct H2 as (t & H2 & H3). apply need_ok in H1. eauto.
  - intros (t & (c & H1 & H2) & H3). exists c. split; [now apply need_ok|]. rewrite keep_none. apply assigned_ok, q_double_some. eauto.
Qed.
Lemma nerr_double_of n name d : nerr (double_of n name d).
Proof. apply nerr_bind; [apply nerr_need|]. intros c. destruct (q_double_text c); [discriminate|apply nerr_assigned]. Qed.
Lemma type_ok n k : int_of n "FileType" (Some (-1)) = Ok k <-> type_says n k.
Proof.
  unfold int_of, type_says. rewrite bind_ok. split.
  - intros (c & H1 & H2). apply need_ok in H1. exists c. split; [exact H1|]. apply bind_ok in H2. destruct H2 as ([z|] & H2 & H3); cbn in H3; injection H3 as <-.
    + left. now apply q_int_some.
    + right. split; [now apply q_int_none|reflexivity].
  - intros (c & H1 & H2). exists c. split; [now apply need_ok|]. apply bind_ok. destruct H2 as [H2|[H2 ->]].
    + exists (Some k). split; [now apply q_int_some|reflexivity].
    + exists None. split; [now apply q_int_none|reflexivity].
Qed.
Lemma using_ok n x : double_of n "UsingTime" (Some 0) = Ok x <-> using_says n x.
Proof.
  unfold double_of, using_says. rewrite bind_ok. split.
  - intros (c & H1 & H2). apply need_ok in H1. exists c. split; [exact H1|]. destruct (q_double_text c) as [z|] eqn:E; cbn in H2; injection H2 as <-.
    + left. now apply q_double_some.
    + right. split; [now apply q_double_none|reflexivity].
  - intros (c & H1 & H2). exists c. split; [now apply need_ok|]. destruct H2 as [H2|[H2 ->]].
    + apply q_double_some in H2. now rewrite H2.
    + apply q_double_none in H2. now rewrite H2.
Qed.

Lemma ints_of_ok l m : ints_of l [None; None; None] = Ok m <->
  exists a b c x y z, l = [a; b; c] /\ m = [x; y; z] /\ q_int_text a = Ok (Some x) /\ q_int_text b = Ok (Some y) /\ q_int_text c = Ok (Some z).
Proof.
  split.
  - destruct l as [|a [|b [|c [|d l]]]]; cbn [ints_of]; intros H.
    1: discriminate H.
    all: apply bind_ok in H; destruct H as (o1 & Q1 & H); apply bind_ok in H; destruct H as (x & K1 & H); rewrite keep_none in K1; apply assigned_ok in K1; subst o1.
    1: discriminate H.
    all: apply bind_ok in H; destruct H as (r1 & H & [= <-]); apply bind_ok in H; destruct H as (o2 & Q2 & H); apply bind_ok in H; destruct H as (y & K2 & H); rewrite keep_none in K2; apply assigned_ok in K2; subst o2.
    1: discriminate H.
    all: apply bind_ok in H; destruct H as (r2 & H & [= <-]); apply bind_ok in H; destruct H as (o3 & Q3 & H); apply bind_ok in H; destruct H as (z & K3 & H); rewrite keep_none in K3; apply assigned_ok in K3; subst o3.
    2: discriminate H.
    cbn in H. injection H as <-. exists a, b, c, x, y, z. auto.
  - intros (a & b & c & x & y & z & -> & -> & Q1 & Q2 & Q3). cbn [ints_of]. rewrite Q1, Q2, Q3. reflexivity.
Qed.
Lemma nerr_ints l : forall d, nerr (ints_of l d).
Proof.
  induction l as [|c l IH]; intros d; cbn [ints_of]; [apply nerr_map, (@nerr_assigned Z)|]. destruct d as [|x d]; [discriminate|].
  apply nerr_bind; [apply nerr_q_int|]. intros o. apply nerr_bind; [destruct o; [discriminate|apply nerr_assigned]|]. intros v. apply nerr_bind; [apply IH|discriminate].
Qed.
Lemma v3_of_ok n name v : v3_of None n name = Ok v <-> triple_at n name v.
Proof.
  unfold v3_of, triple_at. rewrite bind_ok. split.
  - intros (e & H1 & H2). apply need_ok in H1. apply bind_ok in H2. destruct H2 as (m & H2 & H3). apply ints_of_ok in H2.
    destruct H2 as (a & b & c & x & y & z & El & -> & Q1 & Q2 & Q3). injection H3 as <-. cbn [x0 x1 x2].
    apply q_int_some in Q1, Q2, Q3. destruct Q1 as (ta & A1 & A2), Q2 as (tb & B1 & B2), Q3 as (tc & C1 & C2). exists e, a, b, c, ta, tb, tc. auto 10.
  - intros (e & a & b & c & ta & tb & tc & H1 & El & A1 & A2 & B1 & B2 & C1 & C2). exists e. split; [now apply need_ok|]. apply bind_ok.
    exists [x0 v; x1 v; x2 v]. split; [|destruct v; reflexivity]. apply ints_of_ok. exists a, b, c, (x0 v), (x1 v), (x2 v).
    repeat (split; [first [exact El|reflexivity|apply q_int_some; eauto]|]). apply q_int_some. eauto.
Qed.
Lemma nerr_v3 u n name : nerr (v3_of u n name).
Proof. apply nerr_bind; [apply nerr_need|]. intros e. apply nerr_bind; [apply nerr_ints|]. intros [|a [|b [|c [|d l]]]]; discriminate. Qed.

(** ** Auxiliary data *)

Lemma order_sorted a : in_order a <-> StronglySorted slt a.
Proof.
  assert (X : forall p q, slt p q <-> before (fst p) (fst q)) by (intros; apply str_lt_before).
  split.
  - induction 1 as [|p l H1 H2 IH]; constructor; [exact IH|]. eapply Forall_impl; [|exact H1]. intros q. apply X.
  - induction 1 as [|p l H2 IH H1]; constructor; [|exact IH]. eapply Forall_impl; [|exact H1]. intros q. apply X.
Qed.
Lemma assign_spec a k v : StronglySorted slt a ->
  StronglySorted slt (aux_assign a k v) /\ forall p, In p (aux_assign a k v) <-> p = (k, v) \/ (In p a /\ fst p <> k).
Proof.
  induction a as [|[k' v'] a IH]; intros Hs; cbn [aux_assign].
  - split; [repeat constructor|]. intros p. cbn. intuition congruence.
  - inversion Hs as [|? ? Hs1 Hs2]; subst. rewrite Forall_forall in Hs2. unfold slt in Hs2; cbn [fst] in Hs2.
    destruct (str_lt k k') eqn:E1.
    + assert (Hne : forall p, In p ((k', v') :: a) -> fst p <> k).
      { intros p [<-|Hp] C; cbn [fst] in C; subst; [rewrite str_lt_irrefl in E1; discriminate|].
        pose proof (str_lt_trans _ _ _ E1 (Hs2 p Hp)) as C. rewrite str_lt_irrefl in C. discriminate. }
      split.
      * constructor; [assumption|]. apply Forall_forall. intros p [<-|Hin]; [assumption|]. unfold slt. cbn [fst]. eapply str_lt_trans; [eassumption|]. apply Hs2. assumption.
      * intros p. specialize (Hne p). cbn [In] in *. intuition congruence.
    + destruct (str_lt k' k) eqn:E2.
      * destruct (IH Hs1) as (I1 & I2). split.
        -- constructor; [assumption|]. apply Forall_forall. intros p Hp. apply I2 in Hp. unfold slt. cbn [fst]. destruct Hp as [->|[Hp _]]; [assumption|apply Hs2; assumption].
        -- intros p. cbn [In]. rewrite I2. assert ((k', v') = p -> fst p <> k) by (intros <-; cbn; intros ->; rewrite str_lt_irrefl in E2; discriminate). tauto.
      * assert (k' = k) as -> by (apply str_lt_total; assumption). split; [constructor; [assumption|]; apply Forall_forall; exact Hs2|].
        intros p. cbn [In]. assert (In p a -> fst p <> k).
        { intros Hp C. specialize (Hs2 p Hp). rewrite C, str_lt_irrefl in Hs2. discriminate. }
        assert ((k, v') = p -> fst p = k) by (intros <-; reflexivity). intuition congruence.
Qed.
Lemma sorted_unique a : forall b, StronglySorted slt a -> StronglySorted slt b -> (forall p, In p a <-> In p b) -> a = b.
Proof.
  induction a as [|p a IH]; intros [|q b] Ha Hb H; [reflexivity|exfalso; apply (H q); left; reflexivity|exfalso; apply (H p); left; reflexivity|].
  inversion Ha as [|? ? A1 A2]; inversion Hb as [|? ? B1 B2]; subst. rewrite Forall_forall in A2, B2. unfold slt in A2, B2.
  assert (X : forall x y : string * string, str_lt (fst x) (fst y) = true -> str_lt (fst y) (fst x) = true -> False).
  { intros x y H1 H2. pose proof (str_lt_trans _ _ _ H1 H2) as C. rewrite str_lt_irrefl in C. discriminate. }
  assert (p = q) as <-.
  { destruct (proj1 (H p) (or_introl eq_refl)) as [E|E]; [auto|]. destruct (proj2 (H q) (or_introl eq_refl)) as [E'|E']; [auto|]. exfalso. eapply X; eauto. }
  f_equal. apply IH; [assumption..|]. intros x. specialize (H x). cbn [In] in H.
  assert (In x a -> p <> x) by (intros Hx ->; specialize (A2 _ Hx); rewrite str_lt_irrefl in A2; discriminate).
  assert (In x b -> p <> x) by (intros Hx ->; specialize (B2 _ Hx); rewrite str_lt_irrefl in B2; discriminate). tauto.
Qed.

(** [a] holds what the elements of [l] say and for other names what [a0] says. *)
Lemma aux_of_spec l : forall a0 a, StronglySorted slt a0 -> aux_of l a0 = Ok a ->
  StronglySorted slt a /\ (forall c, In c l -> exists t, holds_text c t) /\
  forall k t, In (k, t) a <-> (exists l1 c l2, l = l1 ++ c :: l2 /\ name_of c = k /\ holds_text c t /\ Forall (fun d => name_of d <> k) l2) \/
                          (In (k, t) a0 /\ Forall (fun d => name_of d <> k) l).
Proof.
  induction l as [|c l IH]; intros a0 a Hs H; cbn [aux_of] in H.
  - injection H as <-. split; [exact Hs|]. split; [contradiction|]. intros k t. split; [auto|]. intros [([|? ?] & ? & ? & C & _)|[H _]]; [discriminate C..|exact H].
  - apply bind_ok in H. destruct H as (v & H1 & H2). apply str_ok, get_text_holds in H1. destruct (assign_spec a0 (name_of c) v Hs) as (S1 & S2).
    destruct (IH _ _ S1 H2) as (I1 & I2 & I3). split; [exact I1|]. split; [intros d [<-|Hd]; eauto|]. intros k t. rewrite I3, S2. cbn [fst]. split.
    + intros [(l1 & d & l2 & -> & Hd)|[[[= -> ->]|[H Hn]] HF]].
      * left. exists (c :: l1), d, l2. auto.
      * left. exists [], c, l. auto.
      * right. split; [exact H|]. constructor; [congruence|exact HF].
    + intros [(l1 & d & l2 & E & Hn & Ht & HF)|[H HF]].
      * destruct l1 as [|d' l1]; injection E as <- ->.
        -- right. split; [left|exact HF]. apply get_text_holds in Ht, H1. congruence.
        -- left. exists l1, d, l2. auto.
      * inversion HF; subst. right. split; [right; split; [exact H|congruence]|assumption].
Qed.
Lemma aux_of_total l : (forall c, In c l -> exists t, holds_text c t) -> forall a0, exists a, aux_of l a0 = Ok a.
Proof.
  induction l as [|c l IH]; intros H a0; cbn [aux_of]; [eauto|]. destruct (H c (or_introl eq_refl)) as (t & Ht). apply get_text_holds in Ht. rewrite Ht.
  cbn [str rbind]. apply IH. intros d Hd. apply H. right. exact Hd.
Qed.
Lemma pairs_ok l a : aux_of l [] = Ok a <-> pairs_say l a.
Proof.
  split.
  - intros H. destruct (aux_of_spec l [] a (SSorted_nil _) H) as (H1 & H2 & H3). split; [now apply order_sorted|]. split; [exact H2|]. intros k t. rewrite H3. cbn [In]. tauto.
  - intros (H1 & H2 & H3). destruct (aux_of_total l H2 []) as (a' & E). rewrite E. f_equal. destruct (aux_of_spec l [] a' (SSorted_nil _) E) as (G1 & _ & G3).
    apply sorted_unique; [exact G1|now apply order_sorted|]. intros [k t]. rewrite G3, H3. cbn [In]. tauto.
Qed.
Lemma aux_ok n a : read_aux n = Ok a <-> aux_say n a.
Proof.
  unfold read_aux, aux_say. destruct (child n "Auxiliary") as [c|] eqn:E.
  - rewrite pairs_ok. apply child_first in E. split; [eauto|]. intros [(c' & H1 & H2)|[H _]]; [|now destruct (H c)].
    apply child_first in E, H1. congruence.
  - split; [intros [= <-]; right; split; [intros c H; apply child_first in H; congruence|reflexivity]|].
    intros [(c' & H1 & H2)|[_ ->]]; [apply child_first in H1; congruence|reflexivity].
Qed.
Lemma nerr_aux_of l : forall a, nerr (aux_of l a).
Proof. induction l as [|c l IH]; intros a; cbn [aux_of]; [discriminate|]. apply nerr_bind; [apply nerr_str|]. intros v. apply IH. Qed.
Lemma nerr_read_aux n : nerr (read_aux n).
Proof. unfold read_aux. destruct (child n _); [apply nerr_aux_of|discriminate]. Qed.

(** ** Zones *)

Lemma data_of_ok c d : data_of None c = Ok d <-> data_says c d.
Proof.
  unfold data_of, data_says, q_int_attr, q_unsigned_attr, q_double_attr. split.
  - intros H. apply bind_ok in H. destruct H as (o & E1 & H). apply bind_ok in H. destruct H as (ty & K1 & H). apply assigned_ok in K1. subst o.
    apply bind_ok in H. destruct H as (o & E2 & H). apply bind_ok in H. destruct H as (si & K2 & H). apply assigned_ok in K2. subst o.
    apply bind_ok in H. destruct H as (pt & E3 & H). apply str_ok, attr_ok in E3.
    apply bind_ok in H. destruct H as (mn & E4 & H). rewrite keep_none in E4. apply assigned_ok in E4.
    apply bind_ok in H. destruct H as (mx & E5 & H). rewrite keep_none in E5. apply assigned_ok in E5. injection H as <-. cbn [dl_type dl_size dl_pt dl_min dl_max].
    destruct (attribute (attrs c) "type") as [t1|] eqn:A1; [|discriminate E1]. apply attr_ok in A1. apply scan_some in E1.
    destruct (attribute (attrs c) "size_i") as [t2|] eqn:A2; [|discriminate E2]. apply attr_ok in A2.
    destruct (attribute (attrs c) "min") as [t4|] eqn:A4; [|discriminate E4]. apply attr_ok in A4.
    destruct (attribute (attrs c) "max") as [t5|] eqn:A5; [|discriminate E5]. apply attr_ok in A5.
    unfold scan_unsigned in E2. destruct (decimal t2) as [v|] eqn:D2; [|discriminate E2].
    destruct (Z.abs v <? 2 ^ 32) eqn:B2; [|discriminate E2]. apply Z.ltb_lt in B2. injection E2 as <-. eauto 20.
  - intros ((t1 & A1 & E1) & (t2 & v & A2 & D2 & B2 & E2) & (t3 & A3 & E3) & (t4 & A4 & E4) & (t5 & A5 & E5)). apply attr_ok in A1, A2, A3, A4, A5.
    rewrite A1, A2, A3, A4, A5. apply scan_some in E1. rewrite E1. cbn [rbind assigned]. unfold scan_unsigned. rewrite D2. apply Z.ltb_lt in B2. rewrite B2.
    cbn [rbind assigned str]. rewrite E4, E5. cbn [keep rbind]. rewrite <- E2, <- E3. destruct d; reflexivity.
Qed.
Lemma nerr_data c : nerr (data_of None c).
Proof.
  unfold data_of, q_int_attr, q_unsigned_attr. apply nerr_bind; [destruct (attribute _ _); [apply nerr_scan|discriminate]|]. intros o.
  apply nerr_bind; [apply nerr_assigned|]. intros ty. apply nerr_bind.
  { destruct (attribute _ _); [|discriminate]. unfold scan_unsigned. destruct (decimal _); [|discriminate]. destruct (_ <? _); discriminate. }
  intros o2. apply nerr_bind; [apply nerr_assigned|]. intros si. apply nerr_bind; [apply nerr_str|]. intros pt.
  apply nerr_bind; [rewrite keep_none; apply nerr_assigned|]. intros mn. apply nerr_bind; [rewrite keep_none; apply nerr_assigned|]. discriminate.
Qed.

Lemma read_zone_says n g : read_zone_with None n = Ok g -> zone_says n g /\ zl_json g = [] /\ zl_xml g = [].
Proof.
  unfold read_zone_with. intros H.
  apply bind_ok in H. destruct H as (name & E1 & H). apply text_of_ok in E1.
  apply bind_ok in H. destruct H as (c & E2 & H). apply bind_ok in H. destruct H as (o & E3 & H). apply bind_ok in H. destruct H as (strand & E4 & H).
  assert (ES : int_at n "StrandId" strand) by (apply int_need; rewrite E2; cbn [rbind]; rewrite E3; exact E4).
  apply bind_ok in H. destruct H as (time & E5 & H).
  apply bind_ok in H. destruct H as (dim & E6 & H). apply int_of_ok in E6. apply bind_ok in H. destruct H as (rdim & E7 & H). apply int_of_ok in E7.
  apply bind_ok in H. destruct H as (mx & E8 & H). apply v3_of_ok in E8. apply bind_ok in H. destruct H as (sk & E9 & H). apply v3_of_ok in E9.
  apply bind_ok in H. destruct H as (bg & E10 & H). apply v3_of_ok in E10. apply bind_ok in H. destruct H as (en & E11 & H). apply v3_of_ok in E11.
  apply bind_ok in H. destruct H as (rm & E12 & H). apply v3_of_ok in E12. apply bind_ok in H. destruct H as (a & E13 & H). apply aux_ok in E13.
  apply bind_ok in H. destruct H as (ds & E14 & H). apply need_ok in E14. apply bind_ok in H. destruct H as (dd & E15 & [= <-]).
  apply (map_res_ok _ _ data_of_ok) in E15. split; [|split; reflexivity]. unfold zone_says. cbn [zl_zone zl_real zl_data z_name z_strand z_time z_max z_skip z_begin z_end z_aux r_dim r_rdim r_max].
  repeat (split; [assumption|]). split; [|repeat (split; [assumption|]); eauto].
  intros Hn. apply Z.eqb_neq in Hn. rewrite Hn in E5. now apply double_of_ok.
Qed.
Lemma zone_says_read n g : zone_says n g -> exists g', read_zone_with None n = Ok g' /\ zone_eq g g'.
Proof.
  unfold zone_says. intros (E1 & E2 & E5 & E6 & E7 & E8 & E9 & E10 & E11 & E12 & E13 & c & E14 & E15).
  apply text_of_ok in E1. apply int_need in E2. apply int_of_ok in E6, E7. apply v3_of_ok in E8, E9, E10, E11, E12. apply aux_ok in E13. apply need_ok in E14.
  apply (map_res_ok _ _ data_of_ok) in E15.
  apply bind_ok in E2. destruct E2 as (cs & S1 & S2). apply bind_ok in S2. destruct S2 as (o & S2 & S3).
  unfold read_zone_with. rewrite E1. cbn [rbind]. rewrite S1. cbn [rbind]. rewrite S2. cbn [rbind]. rewrite S3. cbn [rbind].
  assert (ET : exists t, (if z_strand (zl_zone g) =? -1 then Ok 0 else double_of n "SolutionTime" None) = Ok t /\ (z_strand (zl_zone g) <> -1 -> t = z_time (zl_zone g))).
  { destruct (Z.eqb_spec (z_strand (zl_zone g)) (-1)) as [E|E]; [exists 0; split; [reflexivity|contradiction]|]. specialize (E5 E). apply double_of_ok in E5. eauto. }
  destruct ET as (t & ET & Ht). rewrite ET. cbn [rbind]. rewrite E6, E7. cbn [rbind]. rewrite E8, E9. cbn [rbind]. rewrite E10, E11. cbn [rbind]. rewrite E12, E13. cbn [rbind].
  rewrite E14. cbn [rbind]. rewrite E15. cbn [rbind]. eexists. split; [reflexivity|]. unfold zone_eq. cbn [zl_zone zl_real zl_data z_name z_strand z_time z_max z_skip z_begin z_end z_aux r_dim r_rdim r_max].
  repeat (split; [first [reflexivity|exact Ht]|]). reflexivity.
Qed.
Lemma nerr_zone n : nerr (read_zone_with None n).
Proof.
  unfold read_zone_with. apply nerr_bind; [apply nerr_text_of|]. intros name. apply nerr_bind; [apply nerr_need|]. intros c. apply nerr_bind; [apply nerr_q_int|]. intros o.
  apply nerr_bind; [apply nerr_assigned|]. intros s. apply nerr_bind; [destruct (_ =? _); [discriminate|apply nerr_double_of]|]. intros t.
  do 2 (apply nerr_bind; [apply nerr_int_of|]; intros). do 5 (apply nerr_bind; [apply nerr_v3|]; intros). apply nerr_bind; [apply nerr_read_aux|]. intros.
  apply nerr_bind; [apply nerr_need|]. intros. apply nerr_bind; [apply nerr_map, nerr_data|]. discriminate.
Qed.

(** ** Files *)

Definition core (n : node) : res file_log :=
  let* name := str (attribute (attrs n) "FileName") in
  let* path := text_of n "FilePath" in
  let* begin := text_of n "Time" in
  let* ut := double_of n "UsingTime" (Some 0) in
  let* title := text_of n "Title" in
  let* type := int_of n "FileType" (Some (-1)) in
  let* vs := need n "Variables" in
  let vars := map name_of (elems vs) in
  let* a := read_aux n in
  let* zs := need n "Zones" in
  let* zones := map_res (read_zone_with None) (elems zs) in
  Ok (mkFL (mkFile path name title vars type a [] 0) zones begin "" ut 0 "" [] [] []).
Lemma read_core n : read_xml n = rbind (core n) gen_texts.
Proof.
  unfold read_xml, core. repeat (match goal with |- rbind ?r _ = rbind (rbind ?r _) _ => destruct r; cbn [rbind]; [|reflexivity|reflexivity] end). reflexivity.
Qed.
Lemma nerr_core n : nerr (core n).
Proof.
  unfold core. apply nerr_bind; [apply nerr_str|]. intros. do 2 (apply nerr_bind; [apply nerr_text_of|]; intros). apply nerr_bind; [apply nerr_double_of|]. intros.
  apply nerr_bind; [apply nerr_text_of|]. intros. apply nerr_bind; [apply nerr_int_of|]. intros. apply nerr_bind; [apply nerr_need|]. intros. cbv zeta.
  apply nerr_bind; [apply nerr_read_aux|]. intros. apply nerr_bind; [apply nerr_need|]. intros. apply nerr_bind; [apply nerr_map, nerr_zone|]. discriminate.
Qed.
Lemma core_says n l : core n = Ok l -> file_says n l /\ fl_json l = [] /\ fl_xml l = [] /\ Forall (fun z => zl_xml z = []) (fl_zones l).
Proof.
  unfold core. intros H.
  apply bind_ok in H. destruct H as (name & E1 & H). apply str_ok, attr_ok in E1. apply bind_ok in H. destruct H as (path & E2 & H). apply text_of_ok in E2.
  apply bind_ok in H. destruct H as (begin & E3 & H). apply text_of_ok in E3. apply bind_ok in H. destruct H as (ut & E4 & H). apply using_ok in E4.
  apply bind_ok in H. destruct H as (title & E5 & H). apply text_of_ok in E5. apply bind_ok in H. destruct H as (ty & E6 & H). apply type_ok in E6.
  apply bind_ok in H. destruct H as (vs & E7 & H). apply need_ok in E7. cbv zeta in H. apply bind_ok in H. destruct H as (a & E8 & H). apply aux_ok in E8.
  apply bind_ok in H. destruct H as (zs & E9 & H). apply need_ok in E9. apply bind_ok in H. destruct H as (zones & E10 & [= <-]).
  assert (HZ : Forall2 (fun c z => zone_says c z /\ zl_xml z = []) (elems zs) zones).
  { revert zones E10. generalize (elems zs). clear. induction l as [|c l IH]; intros m H; cbn [map_res] in H; [injection H as <-; constructor|].
    apply bind_ok in H. destruct H as (z & H1 & H). apply bind_ok in H. destruct H as (r & H2 & [= <-]). constructor; [|now apply IH]. apply read_zone_says in H1. tauto. }
  split; [|split; [reflexivity|split; [reflexivity|]]].
  - unfold file_says. cbn [fl_file fl_begin fl_using fl_zones f_name f_path f_title f_type f_vars f_aux]. repeat (split; [assumption|]). split; [eauto|]. split; [assumption|].
    exists zs. split; [assumption|]. clear - HZ. induction HZ as [|c z l m [H _] _ IH]; constructor; assumption.
  - cbn [fl_zones]. clear - HZ. induction HZ as [|c z l m [_ H] _ IH]; constructor; assumption.
Qed.
Lemma says_core n g : file_says n g -> exists l, core n = Ok l /\ log_eq g l.
Proof.
  unfold file_says. intros (E1 & E2 & E3 & E4 & E5 & E6 & (vs & E7 & EV) & E8 & zs & E9 & E10).
  apply attr_ok, str_ok in E1. apply text_of_ok in E2, E3, E5. apply using_ok in E4. apply type_ok in E6. apply need_ok in E7, E9. apply aux_ok in E8.
  assert (HZ : exists m, map_res (read_zone_with None) (elems zs) = Ok m /\ Forall2 zone_eq (fl_zones g) m).
  { clear - E10. induction E10 as [|c z l m H _ (r & E & IH)]; [exists []; split; [reflexivity|constructor]|]. destruct (zone_says_read _ _ H) as (z' & Ez & Hz).
    exists (z' :: r). cbn [map_res]. rewrite Ez, E. split; [reflexivity|now constructor]. }
  destruct HZ as (m & Em & HZ). unfold core. rewrite E1, E2. cbn [rbind]. rewrite E3, E4. cbn [rbind]. rewrite E5, E6. cbn [rbind]. rewrite E7. cbn [rbind].
  rewrite E8. cbn [rbind]. rewrite E9. cbn [rbind]. rewrite Em. cbn [rbind]. eexists. split; [reflexivity|]. unfold log_eq.
  cbn [fl_file fl_begin fl_using fl_zones f_name f_path f_title f_type f_vars f_aux]. repeat (split; [first [reflexivity|congruence]|]). exact HZ.
Qed.

(** ** Texts *)

Lemma numbered_nth {A} (P : nat * A -> Prop) (l : list A) : forall k,
  Forall P (numbered k l) <-> forall i v, nth_error l i = Some v -> P ((k + i)%nat, v).
Proof.
  induction l as [|a l IH]; intros k; cbn [numbered].
  - split; [intros _ [|i] v H; discriminate H|constructor].
  - rewrite Forall_cons_iff, IH. split.
    + intros [H1 H2] [|i] v H; cbn in H; [injection H as <-; rewrite Nat.add_0_r; exact H1|]. specialize (H2 i v H). rewrite Nat.add_succ_r. exact H2.
    + intros H. split; [specialize (H 0%nat a eq_refl); rewrite Nat.add_0_r in H; exact H|]. intros i v Hv. specialize (H (S i) v Hv). rewrite Nat.add_succ_r in H. exact H.
Qed.
Lemma fit_short l : texts_fit l <-> log_short l.
Proof.
  unfold texts_fit, log_short, xml_fits. cbv zeta. rewrite (numbered_nth _ _ 0). cbn [fst snd Nat.add]. split.
  - intros ((A1 & A2 & A3 & A4 & A5 & A6 & A7) & B & C). tauto.
  - intros (A1 & A2 & A3 & A4 & A5 & A6 & A7 & A8). rewrite short_pairs in *.
    destruct A7 as [A7 A9]. repeat split; assumption.
Qed.
Lemma eq_short g l : log_eq g l -> log_short g -> log_short l.
Proof.
  unfold log_eq, log_short. cbv zeta. intros (-> & -> & -> & -> & _ & -> & -> & -> & HZ) (A1 & A2 & A3 & A4 & A5 & A6 & A7 & A8).
  do 7 (split; [assumption|]). clear - HZ A8. induction HZ as [|z z' zs zs' H _ IH]; [constructor|]. inversion_clear A8 as [|? ? A B]. constructor; [|apply IH, B].
  destruct H as (-> & _ & _ & _ & _ & _ & _ & -> & _). exact A.
Qed.

(** ** Logs read *)

Definition moved (l g : file_log) : Prop :=
  fl_file g = fl_file l /\ fl_begin g = fl_begin l /\ fl_using g = fl_using l /\
  Forall2 (fun z z' => zl_zone z' = zl_zone z /\ zl_real z' = zl_real z /\ zl_data z' = zl_data z) (fl_zones l) (fl_zones g).
Lemma moved_says n l g : moved l g -> file_says n l -> file_says n g.
Proof.
  intros (E1 & E2 & E3 & HZ). unfold file_says. rewrite E1, E2, E3. cbv zeta. intros (A1 & A2 & A3 & A4 & A5 & A6 & A7 & A8 & c & A9 & A10).
  do 8 (split; [assumption|]). exists c. split; [assumption|]. revert A10. generalize (elems c). clear - HZ.
  induction HZ as [|z z' zs zs' (H1 & H2 & H3) _ IH]; intros cs H; inversion_clear H; constructor; [|now apply IH].
  unfold zone_says in *. rewrite H1, H2, H3. assumption.
Qed.
Lemma moved_eq l g : moved l g -> log_eq l g.
Proof.
  intros (E1 & E2 & E3 & HZ). unfold log_eq. rewrite E1, E2, E3. cbv zeta. do 8 (split; [reflexivity|]). clear - HZ.
  induction HZ as [|z z' zs zs' (H1 & H2 & H3) _ IH]; constructor; [|exact IH]. unfold zone_eq. rewrite H1, H2, H3. repeat split; reflexivity.
Qed.
Lemma log_eq_trans a b c : log_eq a b -> log_eq b c -> log_eq a c.
Proof.
  unfold log_eq. cbv zeta. intros (A1 & A2 & A3 & A4 & A5 & A6 & A7 & A8 & A9) (B1 & B2 & B3 & B4 & B5 & B6 & B7 & B8 & B9).
  do 8 (split; [congruence|]). revert B9. generalize (fl_zones c). clear - A9. induction A9 as [|z z' zs zs' H _ IH]; intros l H2; inversion_clear H2 as [|? y ? ? K1 K2]; constructor; [|now apply IH].
  unfold zone_eq in *. cbv zeta in *. decompose [and] H. decompose [and] K1. repeat (split; [first [congruence|idtac]|]); try congruence.
  intros C. match goal with Hs : z_strand (zl_zone z') = _, Hy : z_strand (zl_zone z') <> -1 -> _ , Hz : z_strand (zl_zone z) <> -1 -> _ |- _ => rewrite Hy by congruence; apply Hz, C end.
Qed.
Lemma read_ok n g : read_xml n = Ok g -> exists l, core n = Ok l /\ gen_texts l = Ok g /\ moved l g /\ log_short l.
Proof.
  rewrite read_core. intros H. apply bind_ok in H. destruct H as (l & El & H). exists l. split; [exact El|]. split; [exact H|].
  destruct (core_says _ _ El) as (_ & _ & HX & HZ). destruct (gen_texts_text _ _ H HX HZ) as (_ & _ & H1 & H2 & H3 & H4).
  split; [repeat split; assumption|]. apply fit_short. destruct (gen_texts_cases l) as [[T _]|[_ C]]; [exact T|congruence].
Qed.
Lemma outcome n :
  (exists g, read_xml n = Ok g /\ file_says n g /\ log_short g) \/
  (read_xml n = UB /\ forall g, file_says n g -> ~ log_short g).
Proof.
  rewrite read_core. destruct (core n) as [l|e|] eqn:E; cbn [rbind].
  - destruct (gen_texts_cases l) as [(T & j & x & gs & Eg & _)|[T Eg]].
    + left. eexists. split; [exact Eg|].
      assert (R : read_xml n = Ok (fl_set_text (fl_json l ++ j) (fl_xml l ++ x) (fl_set_zones gs l))) by (rewrite read_core, E; exact Eg).
      apply read_ok in R. destruct R as (l' & E' & _ & M & S). assert (l' = l) by congruence. subst l'.
      split; [apply (moved_says _ _ _ M), (core_says _ _ E)|apply (eq_short l); [apply moved_eq, M|exact S]].
    + right. split; [exact Eg|]. intros g Hg Sg. destruct (says_core _ _ Hg) as (l' & E' & Q'). assert (l' = l) by congruence. subst l'. apply T, fit_short, (eq_short g); assumption.
  - destruct (nerr_core n e E).
  - right. split; [reflexivity|]. intros g Hg _. destruct (says_core _ _ Hg) as (l' & E' & _). congruence.
Qed.
Lemma unique n g g' : read_xml n = Ok g -> file_says n g' -> log_eq g' g.
Proof.
  intros R H. apply read_ok in R. destruct R as (l & E & _ & M & _). destruct (says_core _ _ H) as (l' & E' & Q'). assert (l' = l) by congruence. subst l'.
  apply (log_eq_trans _ l); [exact Q'|apply moved_eq, M].
Qed.

(** ** Written again *)

Lemma moved_short n g : read_xml n = Ok g -> log_short g.
Proof. intros R. apply read_ok in R. destruct R as (l & _ & _ & M & S). apply (eq_short l); [apply moved_eq, M|exact S]. Qed.
Lemma says_in n g : read_xml n = Ok g -> file_says n g.
Proof. intros R. apply read_ok in R. destruct R as (l & E & _ & M & _). apply (moved_says _ _ _ M), (core_says _ _ E). Qed.

Lemma strtol_range t : - 2 ^ 63 <= strtol t < 2 ^ 63.
Proof. unfold strtol. change (2 ^ 63) with 9223372036854775808. destruct (decimal t); lia. Qed.
Lemma says_ints c z : zone_says c z -> Forall (fun d => dl_size d <= INT_MAX) (zl_data z) -> zone_ints z.
Proof.
  unfold zone_says. cbv zeta. intros (_ & (t1 & _ & _ & I1) & _ & (t2 & _ & _ & I2) & (t3 & _ & _ & I3) & T1 & T2 & T3 & T4 & T5 & _ & e & _ & D) HS.
  assert (TR : forall name v, triple_at c name v -> ints3 v).
  { intros name v (x & a & b & d & ta & tb & tc & _ & _ & _ & [_ J1] & _ & [_ J2] & _ & [_ J3]). repeat split; apply J1 || apply J2 || apply J3. }
  unfold zone_ints. repeat (split; [first [assumption|eapply TR; eassumption]|]).
  revert D HS. generalize (elems e) (zl_data z). clear. induction 1 as [|x d l m H _ IH]; intros HS; [constructor|]. inversion_clear HS as [|? ? S1 S2].
  constructor; [|now apply IH]. destruct H as ((t & _ & _ & J1) & (t2 & v & _ & _ & _ & Es) & (t3 & _ & Ep) & _). split; [exact J1|]. split.
  - rewrite Es in *. pose proof (Z.mod_pos_bound v (2 ^ 32) ltac:(lia)). lia.
  - rewrite Ep. apply strtol_range.
Qed.

Theorem again n g depth : read_xml n = Ok g -> xml_safe (described g) -> plain_text (fl_begin g) ->
  (forall v, num64 (fl_using g) = Fin v -> Z.abs v < 2 ^ 64 * 2 ^ 1074) ->
  Forall (fun z => Forall (fun d => dl_size d <= INT_MAX) (zl_data z)) (fl_zones g) ->
  exists t g', xml_file g depth = Ok t /\ same_log g g' /\
    forall fs p, fs (c_str p) = Some (list_ascii_of_string t) -> read_log fs p = Ok g'.
Proof.
  intros R Hx Hb Hu Hd. pose proof (moved_short _ _ R) as SH. pose proof (says_in _ _ R) as SAY.
  destruct (read_ok _ _ R) as (l & El & Eg & M & _). destruct (core_says _ _ El) as (_ & _ & HX & HZ).
  destruct (gen_texts_text _ _ Eg HX HZ) as (ET & EZ & _). clear l El Eg M HX HZ R.
  set (g1 := mkFL (described g) (fl_zones g) (fl_begin g) (fl_end g) (fl_using g) (fl_size g) "" [] [] (fl_xml g)).
  change (file_xml g1 = Ok (fl_xml g1)) in ET. change (Forall (fun z => zone_xml z = Ok (zl_xml z)) (fl_zones g1)) in EZ.
  change (xml_safe (fl_file g1)) in Hx. change (plain_text (fl_begin g1)) in Hb.
  assert (HI : Forall zone_ints (fl_zones g1)).
  { change (fl_zones g1) with (fl_zones g). destruct SAY as (_ & _ & _ & _ & _ & _ & _ & _ & c & _ & SZ). revert Hd. clear - SZ.
    induction SZ as [|x z l m H _ IH]; intros Hd; [constructor|]. inversion_clear Hd. constructor; [eapply says_ints; eassumption|now apply IH]. }
  assert (I1 : in_int (f_type (fl_file g1))).
  { change (in_int (f_type (fl_file g))). destruct SAY as (_ & _ & _ & _ & _ & (c & _ & [(t & _ & _ & H)|[_ ->]]) & _); [exact H|unfold in_int; lia]. }
  destruct (file_loads g1 (fl_xml g1) depth ET eq_refl EZ (proj1 Hx) eq_refl (proj1 Hb)) as (x & Ex & NX & dn & Hdn & EL).
  pose proof (read_file g1 I1 (proj1 Hx) eq_refl HI) as ER. rewrite (safe_blank _ _ Hx Hb) in ER. destruct ER as (y & gs' & Ny & Hgs & ER). cbv zeta in ER.
  match type of ER with _ = gen_texts ?l => set (l' := l) in * end.
  change (xml_file g depth = Ok x) in Ex.
  assert (TF : texts_fit l').
  { apply fit_short. destruct SH as (A1 & A2 & A3 & A4 & A5 & A6 & A7 & A8). unfold log_short. cbv zeta. subst l'.
    cbn [fl_file fl_begin fl_using fl_zones f_name f_path f_title f_vars f_aux]. do 4 (split; [assumption|]). split; [|split; [assumption|split; [assumption|]]].
    - apply (using_again (mkEnv true (fun _ _ => false) (fl_begin g) "" (fl_using g))); [|exact Ny]. split; [exact A4|exact Hu].
    - change (fl_zones g1) with (fl_zones g) in Hgs. clear - A8 Hgs. induction Hgs as [|z z' zs zs' HZ H2 IH]; [constructor|]. inversion_clear A8 as [|? ? T4 T5].
      constructor; [|apply IH, T5]. destruct HZ as (-> & _ & _ & _ & _ & _ & _ & -> & _). exact T4. }
  destruct (gen_texts_cases l') as [(_ & j & xm & gs2 & Eg2 & Et2 & _)|[C _]]; [|contradiction].
  rewrite Eg2 in ER. exists x. eexists. split; [exact Ex|]. split; cycle 1.
  - intros fs p Efs. unfold read_log, load_xml. rewrite Efs, string_of_list_ascii_of_string, EL.
    assert (EC : child (NElem "" [] [dn; file_node g1]) (c_str "File") = Some (file_node g1)).
    { unfold child, elems. cbn [kids filter]. rewrite Hdn. reflexivity. }
    rewrite EC. cbn [rbind]. exact ER.
  - unfold same_log. cbn [fl_set_text fl_set_zones fl_file fl_begin fl_using fl_zones l' f_path f_name f_title f_vars f_type f_aux].
    repeat (split; [first [reflexivity|exact Ny]|]). change (fl_zones g1) with (fl_zones g) in Hgs.
    cbn [l' fl_zones] in Et2. clear - Hgs Et2. revert gs2 Et2. induction Hgs as [|z z' zs zs' HZ H2 IH]; intros [|w ws] E; try discriminate; [constructor|].
    cbn [map] in E. injection E as E1 E2 E3 E4 E5 E6. constructor; [|apply IH, E6]. unfold same_zone in *. rewrite E1, E2, E3. exact HZ.
Qed.
