(** Lemmas about settings kept in an XML file. *)

From Coq Require Import ZArith Ascii String List Bool Lia.
From Verif Require Import Base L_Base M_Bytes M_TecZone M_TecFile Spec_Xml M_Scan L_Scan M_Xml M_ReadXml Spec_XmlDoc L_XmlDoc M_XmlPrint Spec_Save L_Save M_Case Spec_Case.
Import ListNotations.
Open Scope list_scope.
Open Scope Z_scope.

Definition is_first (name : string) (m : node) : bool := String.eqb (name_of m) name.

Lemma find_first l name c : List.find (is_first name) (filter is_elem l) = Some c <-> first l name c.
Proof.
  induction l as [|x l IH].
  - split; [discriminate|]. intros (l1 & l2 & E & _). destruct l1; discriminate E.
  - cbn [filter]. destruct (is_elem x) eqn:Ex.
    + cbn [List.find]. destruct (is_first name x) eqn:Hx.
      * unfold is_first in Hx. apply String.eqb_eq in Hx. destruct x as [t a k| | | |]; try discriminate Ex. cbn [name_of] in Hx. subst t. split.
        -- intros H. injection H as <-. exists [], l. split; [reflexivity|]. split; [reflexivity|constructor].
        -- intros (l1 & l2 & E & T & F). destruct l1 as [|y l1]; injection E as E1 E2.
           ++ congruence.
           ++ subst y. inversion F as [|? ? F1 ?]; subst. exfalso. apply F1. reflexivity.
      * rewrite IH. split.
        -- intros (l1 & l2 & -> & T & F). exists (x :: l1), l2. split; [reflexivity|]. split; [exact T|]. constructor; [|exact F].
           destruct x as [t a k| | | |]; try discriminate Ex. cbn [tag]. intros H. injection H as ->. unfold is_first in Hx. cbn [name_of] in Hx. rewrite String.eqb_refl in Hx. discriminate Hx.
        -- intros (l1 & l2 & E & T & F). destruct l1 as [|y l1]; injection E as E1 E2.
           ++ subst c. destruct x as [t a k| | | |]; try discriminate Ex. cbn [tag] in T. injection T as ->. unfold is_first in Hx. cbn [name_of] in Hx. rewrite String.eqb_refl in Hx. discriminate Hx.
           ++ exists l1, l2. inversion F; subst. auto.
    + rewrite IH. split.
      * intros (l1 & l2 & -> & T & F). exists (x :: l1), l2. split; [reflexivity|]. split; [exact T|]. constructor; [|exact F]. destruct x; try discriminate Ex; discriminate.
      * intros (l1 & l2 & E & T & F). destruct l1 as [|y l1]; injection E as E1 E2.
        -- subst c. destruct x; try discriminate Ex; discriminate T.
        -- exists l1, l2. inversion F; subst. auto.
Qed.

Lemma find_missing l name : List.find (is_first name) (filter is_elem l) = None <-> missing l name.
Proof.
  unfold missing. induction l as [|x l IH].
  - split; [constructor|reflexivity].
  - cbn [filter]. destruct (is_elem x) eqn:Ex.
    + cbn [List.find]. destruct x as [t a k| | | |]; try discriminate Ex. unfold is_first at 1. cbn [name_of]. destruct (String.eqb_spec t name) as [->|N].
      * split; [discriminate|]. intros F. inversion F as [|? ? F1 ?]; subst. exfalso. apply F1. reflexivity.
      * rewrite IH. split; [intros F; constructor; [cbn [tag]; congruence|exact F]|intros F; inversion F; assumption].
    + rewrite IH. split; [intros F; constructor; [destruct x; try discriminate Ex; discriminate|exact F]|intros F; inversion F; assumption].
Qed.

Lemma child_first t a k name c : child (NElem t a k) name = Some c <-> first k name c.
Proof. exact (find_first k name c). Qed.
Lemma child_missing t a k name : child (NElem t a k) name = None <-> missing k name.
Proof. exact (find_missing k name). Qed.

Lemma first_elem k name c : first k name c -> exists t a l, c = NElem t a l.
Proof. intros (l1 & l2 & _ & T & _). destruct c; try discriminate T. eauto. Qed.

(** What walk says. *)
Definition lost (r : node) (path : list string) (e : exn) : Prop :=
  exists p name p' t a k, path = p ++ name :: p' /\ leads r p (NElem t a k) /\ missing k (c_str name) /\
    e = ETec ("node """ ++ name ++ """ not found in node """ ++ t ++ """")%string.

Lemma walk_says t a k path :
  (exists c, walk (NElem t a k) path = Ok c /\ leads (NElem t a k) path c) \/
  (exists e, walk (NElem t a k) path = Err e /\ lost (NElem t a k) path e).
Proof.
  revert t a k. induction path as [|name path IH]; intros t a k.
  - left. exists (NElem t a k). split; [reflexivity|constructor].
  - cbn [walk]. unfold get_xmlnode, check_xmlnode. destruct (child (NElem t a k) (c_str name)) as [c|] eqn:E.
    + cbn [rbind]. apply child_first in E. destruct (first_elem _ _ _ E) as (t' & a' & k' & ->).
      destruct (IH t' a' k') as [(c & W & L)|(e & W & p & nm & p' & t1 & a1 & k1 & -> & L & M & ->)].
      * left. exists c. split; [exact W|]. econstructor; eassumption.
      * right. eexists. split; [exact W|]. exists (name :: p), nm, p', t1, a1, k1. split; [reflexivity|]. split; [econstructor; eassumption|]. split; [exact M|reflexivity].
    + right. eexists. split; [reflexivity|]. apply child_missing in E. exists [], name, path, t, a, k.
      split; [reflexivity|]. split; [constructor|]. split; [exact E|reflexivity].
Qed.

Lemma first_unique k name c c' : first k name c -> first k name c' -> c = c'.
Proof. intros H H'. apply (child_first "" []) in H. apply (child_first "" []) in H'. congruence. Qed.
Lemma leads_unique n p c c' : leads n p c -> leads n p c' -> c = c'.
Proof.
  intros H. revert c'. induction H as [n|t a k name c p m F L IH]; intros c' H'; inversion H'; subst; [reflexivity|].
  apply IH. match goal with G : first k _ ?x |- _ => lazymatch x with c => fail | _ => rewrite (first_unique _ _ _ _ F G); assumption end | _ => idtac end.
Qed.

Lemma first_missing k name c : first k name c -> missing k name -> False.
Proof. intros A B. apply (proj2 (child_first "" [] _ _ _)) in A. apply (proj2 (child_missing "" [] _ _)) in B. congruence. Qed.
Lemma lost_not_leads r path e c : lost r path e -> leads r path c -> False.
Proof.
  intros (p & nm & p' & t1 & a1 & k1 & -> & L1 & M & _). remember (NElem t1 a1 k1) as m eqn:Em.
  induction L1 as [n|t2 a2 k2 name c2 p m Fk Lk IH]; cbn [app]; intros R2.
  - subst n. inversion R2; subst. eapply first_missing; eassumption.
  - inversion R2 as [|? ? ? ? c3 ? ? F3 L3]; subst. apply IH; [reflexivity|]. rewrite (first_unique _ _ _ _ Fk F3). exact L3.
Qed.

(** ** Looking up a path in a file *)

Section Doc.
Variables (fs : string -> option bytes) (file root s : string) (l : list node) (path : list string).
Hypothesis F : fs (c_str file) = Some (list_ascii_of_string s).
Hypothesis L : load_text s = inl l.

Lemma lookup_eq : lookup fs file root path =
  match child (NElem "" [] l) (c_str root) with
  | None => Err (ETec ("node """ ++ root ++ """ not found in " ++ file))
  | Some n => walk n path
  end.
Proof.
  unfold lookup, load_xml. rewrite F, string_of_list_ascii_of_string, L. destruct (child _ _); reflexivity.
Qed.

Lemma lookup_found c : lookup fs file root path = Ok c <-> exists r, first l (c_str root) r /\ leads r path c.
Proof.
  rewrite lookup_eq. destruct (child (NElem "" [] l) (c_str root)) as [n|] eqn:E.
  - apply child_first in E. destruct (first_elem _ _ _ E) as (t & a & k & ->). destruct (walk_says t a k path) as [(c' & W & H)|(e & W & H)]; rewrite W.
    + split; [intros X; injection X as <-; eauto|]. intros (r & R1 & R2). rewrite (first_unique _ _ _ _ R1 E) in R2. f_equal. exact (leads_unique _ _ _ _ H R2).
    + split; [discriminate|]. intros (r & R1 & R2). rewrite (first_unique _ _ _ _ R1 E) in R2. exfalso.
      exact (lost_not_leads _ _ _ _ H R2).
  - apply child_missing in E. split; [discriminate|]. intros (r & R1 & _). exfalso. apply (proj2 (child_missing "" [] _ _)) in E. apply (proj2 (child_first "" [] _ _ _)) in R1. congruence.
Qed.

Lemma lookup_throws e : lookup fs file root path = Err e <->
  missing l (c_str root) /\ e = ETec ("node """ ++ root ++ """ not found in " ++ file)%string \/
  exists r, first l (c_str root) r /\ lost r path e.
Proof.
  assert (ONE : forall t a k path' e1 e2, lost (NElem t a k) path' e1 -> lost (NElem t a k) path' e2 -> e1 = e2).
  { intros t a k path' e1 e2 (p & nm & q & t1 & a1 & k1 & -> & L1 & M1 & ->). revert L1. generalize (NElem t a k). induction p as [|x p IH]; intros n L1 (p2 & nm2 & q2 & t2 & a2 & k2 & E & L2 & M2 & ->).
    - inversion L1; subst. destruct p2 as [|y p2]; cbn [app] in E; injection E as <- E.
      + inversion L2; subst. reflexivity.
      + inversion L2; subst. match goal with G : first k1 _ _ |- _ => apply (proj2 (child_first "" [] _ _ _)) in G end. apply (proj2 (child_missing "" [] _ _)) in M1. congruence.
    - destruct p2 as [|y p2]; cbn [app] in E; injection E as <- E.
      + inversion L2; subst. inversion L1; subst. match goal with G : first k2 _ _ |- _ => apply (proj2 (child_first "" [] _ _ _)) in G end. apply (proj2 (child_missing "" [] _ _)) in M2. congruence.
      + inversion L1; subst. inversion L2; subst.
        match goal with A : first ?k _ ?c1, B : first ?k _ ?c2 |- _ => lazymatch c1 with c2 => fail | _ => rewrite (first_unique _ _ _ _ A B) in * end end.
        eapply IH; [eassumption|]. exists p2, nm2, q2, t2, a2, k2. rewrite E. auto. }
  rewrite lookup_eq. destruct (child (NElem "" [] l) (c_str root)) as [n|] eqn:E.
  - pose proof E as E'. apply child_first in E. destruct (first_elem _ _ _ E) as (t & a & k & ->). destruct (walk_says t a k path) as [(c' & W & H)|(e' & W & H)].
    + pose proof (proj2 (lookup_found c') (ex_intro _ _ (conj E H))) as X. rewrite lookup_eq, E' in X.
      rewrite W. split; [discriminate|]. intros [[M _]|(r & R1 & R2)].
      * apply (proj2 (child_missing "" [] _ _)) in M. congruence.
      * rewrite (first_unique _ _ _ _ R1 E) in R2. destruct (lost_not_leads _ _ _ _ R2 H).
    + rewrite W. split.
      * intros X. injection X as <-. right. eauto.
      * intros [[M _]|(r & R1 & R2)].
        -- apply (proj2 (child_missing "" [] _ _)) in M. congruence.
        -- rewrite (first_unique _ _ _ _ R1 E) in R2. f_equal. exact (ONE _ _ _ _ _ _ H R2).
  - apply child_missing in E. split.
    + intros X. injection X as <-. left. auto.
    + intros [[_ ->]|(r & R1 & _)]; [reflexivity|]. apply (proj2 (child_missing "" [] _ _)) in E. apply (proj2 (child_first "" [] _ _ _)) in R1. congruence.
Qed.
End Doc.

Lemma lookup_defined fs file root path : lookup fs file root path <> UB.
Proof.
  unfold lookup, load_xml. destruct (fs (c_str file)) as [b|]; [|discriminate]. destruct (load_text _) as [l|e]; [|discriminate].
  destruct (child _ _) as [n|] eqn:E; [|discriminate]. cbn [rbind]. apply child_first in E. destruct (first_elem _ _ _ E) as (t & a & k & ->).
  destruct (walk_says t a k path) as [(c & W & _)|(e & W & _)]; rewrite W; discriminate.
Qed.

(** ** Documents with more in them *)

Lemma more_tag n n' : more n n' -> tag n' = tag n.
Proof. intros [?|]; reflexivity. Qed.

Lemma grown_first R seen k k' : grown R seen k k' -> (forall n n', R n n' -> tag n' = tag n) ->
  forall name c, ~ In (Some name) seen -> first k name c -> exists c', first k' name c' /\ R c c'.
Proof.
  intros G HR. induction G as [seen|seen n n' k k' Hn G IH|seen x k k' Hx G IH]; intros name c Hs (l1 & l2 & E & T & A).
  - destruct l1; discriminate E.
  - destruct l1 as [|y l1]; injection E as E1 E2.
    + subst n. exists n'. split; [|exact Hn]. exists [], k'. split; [reflexivity|]. split; [rewrite (HR _ _ Hn); exact T|constructor].
    + subst y. inversion A as [|? ? A1 A2]; subst. destruct (IH name c) as (c' & (m1 & m2 & -> & T' & A') & HC).
      * intros [H|H]; [exact (A1 H)|exact (Hs H)].
      * exists l1, l2. auto.
      * exists c'. split; [|exact HC]. exists (n' :: m1), m2. split; [reflexivity|]. split; [exact T'|]. constructor; [rewrite (HR _ _ Hn); exact A1|exact A'].
  - destruct (IH name c Hs) as (c' & (m1 & m2 & -> & T' & A') & HC); [exists l1, l2; auto|].
    exists c'. split; [|exact HC]. exists (x :: m1), m2. split; [reflexivity|]. split; [exact T'|]. constructor; [|exact A'].
    intros X. rewrite X in Hx. destruct Hx as [H|[H|H]]; [discriminate H|exact (Hs H)|]. apply H. subst k. rewrite map_app. apply in_or_app. right. left. exact T.
Qed.

Lemma more_leads p : forall n n' c, leads n p c -> more n n' -> exists c', leads n' p c' /\ more c c'.
Proof.
  induction p as [|name p IH]; intros n n' c H M.
  - inversion H; subst. exists n'. split; [constructor|exact M].
  - inversion H as [|t a k ? c1 ? ? F L]; subst. inversion M as [|? ? a' ? k' HA G HT]; subst.
    + exists c. split; [exact H|constructor].
    + destruct (grown_first _ _ _ _ G more_tag (c_str name) c1 (fun x => x) F) as (c2 & F2 & M2).
      destruct (IH c1 c2 c L M2) as (c' & L' & M'). exists c'. split; [econstructor; eassumption|exact M'].
Qed.

Lemma more_text n n' t : more n n' -> get_text n = Some t -> get_text n' = Some t.
Proof.
  intros [x|nm a a' k k' HA G HT] H; [exact H|]. unfold get_text in *. cbn [kids] in *. destruct k as [|y k]; [discriminate H|]. destruct y as [| cd v | | |]; try discriminate H.
  destruct (HT cd v k eq_refl) as (l' & ->). exact H.
Qed.
Lemma more_attr n n' x v : more n n' -> attribute (attrs n) x = Some v -> attribute (attrs n') x = Some v.
Proof. intros [m|nm a a' k k' HA G HT] H; [exact H|]. exact (HA x v H). Qed.

Lemma lookup_more fs fs' file root s s' l l' path c :
  fs (c_str file) = Some (list_ascii_of_string s) -> fs' (c_str file) = Some (list_ascii_of_string s') ->
  load_text s = inl l -> load_text s' = inl l' -> grown more [] l l' -> lookup fs file root path = Ok c ->
  exists c', lookup fs' file root path = Ok c' /\ more c c'.
Proof.
  intros F F' L L' G H. apply (lookup_found fs file root s l path F L) in H. destruct H as (r & R1 & R2).
  destruct (grown_first _ _ _ _ G more_tag _ _ (fun x => x) R1) as (r' & R1' & M). destruct (more_leads path r r' c R2 M) as (c' & L1 & M1).
  exists c'. split; [|exact M1]. apply (lookup_found fs' file root s' l' path F' L'). eauto.
Qed.

Lemma lookup_same fs fs' file root s s' l path : fs (c_str file) = Some (list_ascii_of_string s) ->
  fs' (c_str file) = Some (list_ascii_of_string s') -> load_text s = inl l -> load_text s' = inl l -> lookup fs' file root path = lookup fs file root path.
Proof. intros F F' L L'. rewrite (lookup_eq fs file root s l path F L), (lookup_eq fs' file root s' l path F' L'). reflexivity. Qed.
