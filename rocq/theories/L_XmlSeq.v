(** Texts and the nodes the XML parser makes of them. *)

From Coq Require Import ZArith Ascii String List Bool Lia.
From Verif Require Import Base M_Bytes Spec_Xml L_Base L_Text L_Plt M_Scan M_Xml L_Xml.
Import ListNotations.
Open Scope string_scope.
Open Scope Z_scope.

(** ** Characters *)

Lemma chars_nil P : chars P "".
Proof. intros c []. Qed.
Lemma chars_cons P c s : chars P (String c s) <-> P (b2z c) /\ chars P s.
Proof.
  unfold chars. cbn [list_ascii_of_string In]. split.
  - intros H. split; [apply H; auto|]. intros d Hd. apply H. auto.
  - intros [H1 H2] d [<-|Hd]; auto.
Qed.
Lemma chars_app P a b : chars P (a ++ b) <-> chars P a /\ chars P b.
Proof.
  induction a as [|c a IH]; cbn [append].
  - split; [intros H; split; [apply chars_nil|exact H]|intros [_ H]; exact H].
  - rewrite !chars_cons, IH. tauto.
Qed.
Lemma chars_impl (P R : Z -> Prop) s : (forall n, P n -> R n) -> chars P s -> chars R s.
Proof. intros H1 H2 c Hc. apply H1, H2, Hc. Qed.

Definition nonul (s : string) : Prop := chars (fun n => n <> 0) s.
Lemma c_str_id s : nonul s -> c_str s = s.
Proof.
  induction s as [|c s IH]; [reflexivity|]. intros H. apply chars_cons in H. destruct H as [H1 H2]. cbn [c_str].
  destruct (b2z c =? 0) eqn:E; [apply Z.eqb_eq in E; contradiction|]. rewrite IH by assumption. reflexivity.
Qed.
Lemma plain_nonul s : chars plain s -> nonul s.
Proof. apply chars_impl. unfold plain. tauto. Qed.
Lemma value_plain s : plain_value s -> chars plain s.
Proof. apply chars_impl. tauto. Qed.
Lemma name2_value s : chars name2 s -> plain_value s.
Proof. apply chars_impl. unfold name2, name1, plain. lia. Qed.
Lemma name_value s : xml_name s -> plain_value s.
Proof.
  intros (c & r & -> & H1 & H2). unfold plain_value. apply chars_cons. split; [|apply name2_value; assumption].
  unfold name1, plain in *. lia.
Qed.
Lemma name_nonul s : xml_name s -> nonul s.
Proof. intros H. apply plain_nonul, value_plain, name_value, H. Qed.
Lemma space_nonul s : chars space s -> nonul s.
Proof. apply chars_impl. unfold space. lia. Qed.

(** ** Positions *)

Lemma at_cons a s r : at_ (String a s) (String a r) = at_ s r.
Proof. unfold at_. cbn [String.prefix]. destruct (ascii_dec a a); [reflexivity|congruence]. Qed.
Lemma at_nil p : at_ "" p = true.
Proof. destruct p; reflexivity. Qed.
Lemma at_diff a c s r : b2z a <> b2z c -> at_ (String a s) (String c r) = false.
Proof. intros H. unfold at_. cbn [String.prefix]. destruct (ascii_dec a c); [congruence|reflexivity]. Qed.

Lemma is_ws_space c : is_ws c = true <-> space (b2z c).
Proof. unfold is_ws, space. rewrite orb_true_iff, andb_true_iff, Z.eqb_eq, !Z.leb_le. reflexivity. Qed.
Lemma name_start_1 c : name_start c = true <-> name1 (b2z c).
Proof.
  unfold name_start, name1. rewrite !orb_true_iff, !andb_true_iff, !Z.eqb_eq, !Z.leb_le. tauto.
Qed.
Lemma name_char_2 c : name_char c = true <-> name2 (b2z c).
Proof.
  unfold name_char, name2, is_digit. rewrite !orb_true_iff, !andb_true_iff, !Z.eqb_eq, !Z.leb_le, name_start_1. tauto.
Qed.

Lemma skip_ws_app w p : chars space w -> skip_ws (w ++ p) = skip_ws p.
Proof.
  induction w as [|c w IH]; [reflexivity|]. intros H. apply chars_cons in H. destruct H as [H1 H2]. cbn [append skip_ws].
  apply is_ws_space in H1. rewrite H1. auto.
Qed.
Lemma skip_ws_blank w : chars space w -> skip_ws w = "".
Proof. intros H. rewrite <- (append_nil_r w), skip_ws_app by assumption. reflexivity. Qed.
Lemma skip_ws_no c s : ~ space (b2z c) -> skip_ws (String c s) = String c s.
Proof. intros H. cbn [skip_ws]. destruct (is_ws c) eqn:E; [apply is_ws_space in E; contradiction|reflexivity]. Qed.
Lemma skip_ws_text s x : ~ chars space s -> chars plain s ->
  exists c r, skip_ws (s ++ x) = String c r /\ b2z c <> 60.
Proof.
  induction s as [|c s IH]; intros H1 H2; [exfalso; apply H1, chars_nil|]. apply chars_cons in H2. destruct H2 as [H2 H3].
  cbn [append skip_ws]. destruct (is_ws c) eqn:E.
  - apply IH; [|assumption]. intros C. apply H1, chars_cons. split; [apply is_ws_space, E|assumption].
  - exists c, (s ++ x). split; [reflexivity|]. unfold plain in H2. tauto.
Qed.

(** Where a name ends. *)
Definition nstop (x : string) : Prop := match x with String c _ => name_char c = false | "" => True end.
Lemma span_name r x : chars name2 r -> nstop x -> span name_char (r ++ x) = (r, x).
Proof.
  intros H Hx. induction r as [|c r IH]; cbn [append].
  - destruct x as [|d x]; [reflexivity|]. cbn [nstop] in Hx. cbn [span]. rewrite Hx. reflexivity.
  - apply chars_cons in H. destruct H as [H1 H2]. cbn [span]. apply name_char_2 in H1. rewrite H1, IH by assumption. reflexivity.
Qed.
Lemma parse_name_app n x : xml_name n -> nstop x -> parse_name (n ++ x) = Some (n, x).
Proof.
  intros (c & r & -> & H1 & H2) Hx. cbn [append parse_name]. apply name_start_1 in H1. rewrite H1, span_name by assumption. reflexivity.
Qed.

Lemma parse_text_char e s x : chars (fun n => n <> b2z e) s -> parse_text (String e "") (s ++ String e x) = Some (s, x).
Proof.
  induction s as [|c s IH]; intros H; cbn [append].
  - cbn [parse_text]. rewrite at_cons, at_nil. reflexivity.
  - apply chars_cons in H. destruct H as [H1 H2]. cbn [parse_text]. rewrite at_diff by congruence. rewrite IH by assumption. reflexivity.
Qed.

(** Values without carriage returns, NUL and ampersands stay as they are. *)
Lemma flush_plain ent : forall f s, (slen s <= f)%nat -> chars plain s -> flush f ent s s = s.
Proof.
  induction f as [|f IH]; intros [|c s] Hf H; [reflexivity|cbn in Hf; lia|reflexivity|].
  apply chars_cons in H. destruct H as [(H0 & H1 & H2 & H3) H4]. cbn [slen] in Hf. cbn [flush].
  destruct (b2z c =? 13) eqn:E1; [apply Z.eqb_eq in E1; contradiction|].
  destruct (b2z c =? 10) eqn:E2.
  { apply Z.eqb_eq in E2. assert (c = LF) as ->.
    { rewrite <- (z2b_b2z c), E2. reflexivity. }
    f_equal. assert (E : skip_one CR s = s).
    { destruct s as [|d s]; [reflexivity|]. cbn [skip_one]. change (b2z CR) with 13. apply chars_cons in H4. destruct H4 as [(_ & H4 & _) _].
      destruct (b2z d =? 13) eqn:E3; [apply Z.eqb_eq in E3; contradiction|reflexivity]. }
    rewrite E. apply IH; [lia|assumption]. }
  destruct (b2z c =? 38) eqn:E3; [apply Z.eqb_eq in E3; contradiction|]. rewrite andb_false_r. f_equal. apply IH; [lia|assumption].
Qed.
Lemma get_str_plain ent s : chars plain s -> get_str ent s = s.
Proof. intros H. unfold get_str. rewrite flush_plain by auto. apply c_str_id, plain_nonul, H. Qed.

(** ** Attributes *)

Definition attr_text (n v : string) : string := " " ++ n ++ "=""" ++ v ++ """".
Fixpoint attrs_text (l : list (string * string)) : string :=
  match l with [] => "" | (n, v) :: l' => attr_text n v ++ attrs_text l' end.

Lemma attrs_step f acc p : parse_attrs (S f) acc p =
  match skip_ws p with
  | "" => AErr XML_ERROR_PARSING_ELEMENT
  | String c p1 =>
      if name_start c then
        match parse_attr (String c p1) with
        | None => AErr XML_ERROR_PARSING_ATTRIBUTE
        | Some (n, v, r) =>
            match attribute acc n with
            | Some _ => AErr XML_ERROR_PARSING_ATTRIBUTE
            | None => parse_attrs f (acc ++ [(n, v)])%list r
            end
        end
      else if b2z c =? 62 then AOk acc false p1
      else if (b2z c =? 47) && at_ ">" p1 then AOk acc true (tail p1)
      else AErr XML_ERROR_PARSING_ELEMENT
  end.
Proof. reflexivity. Qed.
Lemma pattrs_attr acc n v x : xml_name n -> plain_value v -> attribute acc n = None ->
  pattrs acc (attr_text n v ++ x) = pattrs (acc ++ [(n, v)]) x.
Proof.
  intros Hn Hv Ha. unfold pattrs at 1, attr_text. rewrite attrs_step, !append_assoc. cbn [append].
  change (skip_ws (String " " ?p)) with (skip_ws p).
  assert (E : parse_attr (n ++ String "=" (String """" (v ++ String """" x))) = Some (n, v, x)).
  { unfold parse_attr. rewrite parse_name_app by (assumption || reflexivity). cbn [skip_ws].
    change (is_ws "=") with false. cbv iota. change (b2z "=" =? 61) with true. cbv iota.
    cbn [skip_ws]. change (is_ws """") with false. cbv iota. change ((b2z """" =? 34) || (b2z """" =? 39)) with true. cbv iota.
    rewrite parse_text_char by (eapply chars_impl; [|exact Hv]; intros k; cbv beta; change (b2z """") with 34; intros [_ Hk]; exact Hk).
    rewrite get_str_plain by (apply value_plain; assumption). reflexivity. }
  assert (F : (slen x < slen (n ++ String "=" (String """" (v ++ String """" x))))%nat) by (rewrite length_append; cbn [slen]; rewrite length_append; cbn [slen]; lia).
  remember (n ++ String "=" (String """" (v ++ String """" x))) as y eqn:Ey.
  destruct Hn as (c & r & -> & H1 & H2). cbn [append] in Ey. subst y.
  rewrite skip_ws_no by (unfold name1, space in *; lia). apply name_start_1 in H1. rewrite H1, E, Ha.
  unfold pattrs. apply attrs_fuel; [|lia]. cbn [slen] in *. lia.
Qed.
Lemma pattrs_open acc x : pattrs acc (">" ++ x) = AOk acc false x.
Proof. reflexivity. Qed.
Lemma pattrs_closed acc x : pattrs acc ("/>" ++ x) = AOk acc true x.
Proof.
  unfold pattrs. rewrite attrs_step. change (skip_ws ("/>" ++ x)) with (String "/" (String ">" x)). cbv iota.
  change (name_start "/") with false. change (b2z "/" =? 62) with false. change (b2z "/" =? 47) with true. cbv iota.
  rewrite andb_true_l, at_cons, at_nil. reflexivity.
Qed.

Definition good_attrs (l : list (string * string)) : Prop :=
  NoDup (map fst l) /\ Forall (fun a => xml_name (fst a) /\ plain_value (snd a)) l.
Lemma attribute_app l n v m : attribute l m = None -> n <> m -> attribute (l ++ [(n, v)]) m = None.
Proof.
  induction l as [|[a b] l IH]; cbn [attribute app]; intros H1 H2.
  - destruct (String.eqb_spec n m); [contradiction|reflexivity].
  - destruct (String.eqb a m); [discriminate|auto].
Qed.
Lemma pattrs_list l : forall acc x, good_attrs l -> (forall a, In a l -> attribute acc (fst a) = None) ->
  pattrs acc (attrs_text l ++ x) = pattrs (acc ++ l) x.
Proof.
  induction l as [|[n v] l IH]; intros acc x [H1 H2] Ha; cbn [attrs_text append]; [rewrite app_nil_r; reflexivity|].
  inversion_clear H1 as [|? ? N1 N2]. inversion_clear H2 as [|? ? [F1 F2] F3]. cbn [fst snd] in *.
  rewrite append_assoc, pattrs_attr by (try assumption; apply (Ha (n, v)); left; reflexivity).
  rewrite IH; [rewrite <- app_assoc; reflexivity|split; assumption|].
  intros a Hi. apply attribute_app; [apply Ha; right; exact Hi|]. intros ->. apply N1. apply in_map_iff. eauto.
Qed.

(** ** Nodes *)

Definition lt_ahead (p : string) : Prop := exists r, skip_ws p = "<" ++ r.

Lemma step_ws R top d p p' : skip_ws p = skip_ws p' -> lt_ahead p -> step R top d p = step R top d p'.
Proof.
  intros E [r Hr]. unfold step. rewrite <- E, Hr. cbv zeta. cbn [append].
  change (at_ "<" (String "<" r)) with (at_ "<" ("<" ++ r)). rewrite at_app. reflexivity.
Qed.
Lemma parse_ws top d w p : chars space w -> lt_ahead p -> parse top d (w ++ p) = parse top d p.
Proof.
  intros Hw Hp. rewrite !parse_eq. apply step_ws; [apply skip_ws_app, Hw|]. unfold lt_ahead. rewrite skip_ws_app by exact Hw. exact Hp.
Qed.
Lemma parse_blank top d w : chars space w -> parse top d w = Done [] None.
Proof. intros Hw. rewrite parse_eq. unfold step. rewrite skip_ws_blank by exact Hw. reflexivity. Qed.

Lemma name_not_mark n r : xml_name n -> exists c y, n ++ r = String c y /\ b2z c <> 63 /\ b2z c <> 33 /\ b2z c <> 47 /\ ~ space (b2z c).
Proof.
  intros (c & s & -> & H1 & H2). exists c, (s ++ r). split; [reflexivity|]. unfold name1, space in *. lia.
Qed.

Lemma tag_start top d n r R : xml_name n ->
  step R top d ("<" ++ n ++ r) =
    match parse_name (n ++ r) with
    | None => Fail XML_ERROR_PARSING
    | Some (name, q3) =>
        match pattrs [] q3 with
        | AErr e => Fail e
        | AOk attrs true q4 => push (NElem name attrs []) (R top false q4)
        | AOk attrs false q4 =>
            if String.eqb q4 "" then Fail XML_ERROR_MISMATCHED_ELEMENT
            else
              match R false false q4 with
              | Fail e => Fail e
              | Done _ None => Fail XML_ERROR_PARSING
              | Done kids (Some (q5, en)) =>
                  if String.eqb en name then push (NElem name attrs kids) (R top false q5)
                  else Fail XML_ERROR_MISMATCHED_ELEMENT
              end
        end
    end.
Proof.
  intros Hn. destruct (name_not_mark n r Hn) as (c & y & -> & C1 & C2 & C3 & C4). cbn [append].
  unfold step. cbn [skip_ws]. change (is_ws "<") with false. cbv iota zeta.
  rewrite !at_cons, !at_diff by (cbn; auto). rewrite !at_nil.
  cbn [drop]. rewrite skip_ws_no by assumption. rewrite at_diff by (cbn; auto). reflexivity.
Qed.

Lemma parse_closed top d n l x : xml_name n -> good_attrs l ->
  parse top d ("<" ++ n ++ attrs_text l ++ "/>" ++ x) = push (NElem n l []) (parse top false x).
Proof.
  intros Hn Hl. rewrite parse_eq, tag_start by assumption.
  rewrite parse_name_app by (assumption || (destruct l as [|[? ?] ?]; reflexivity)).
  rewrite pattrs_list, pattrs_closed by (auto; intros; reflexivity). reflexivity.
Qed.
Lemma parse_open top d n l q : xml_name n -> good_attrs l -> q <> "" ->
  parse top d ("<" ++ n ++ attrs_text l ++ ">" ++ q) =
    match parse false false q with
    | Fail e => Fail e
    | Done _ None => Fail XML_ERROR_PARSING
    | Done kids (Some (q5, en)) =>
        if String.eqb en n then push (NElem n l kids) (parse top false q5)
        else Fail XML_ERROR_MISMATCHED_ELEMENT
    end.
Proof.
  intros Hn Hl Hq. rewrite parse_eq, tag_start by assumption.
  rewrite parse_name_app by (assumption || (destruct l as [|[? ?] ?]; reflexivity)).
  rewrite pattrs_list, pattrs_open by (auto; intros; reflexivity). cbn [app].
  destruct (String.eqb_spec q ""); [contradiction|reflexivity].
Qed.
Lemma parse_close top d n x : xml_name n -> parse top d ("</" ++ n ++ ">" ++ x) = Done [] (Some (x, n)).
Proof.
  intros Hn. rewrite parse_eq. change ("</" ++ n ++ ">" ++ x) with (String "<" (String "/" (n ++ ">" ++ x))).
  unfold step. cbn [skip_ws]. change (is_ws "<") with false. cbv iota zeta.
  rewrite !at_cons, !at_diff by (cbn; discriminate). rewrite !at_nil.
  cbn [drop]. rewrite skip_ws_no by (cbn; unfold space; lia). rewrite at_cons. rewrite !at_nil. cbn [drop].
  rewrite parse_name_app by (assumption || reflexivity). rewrite pattrs_open. reflexivity.
Qed.
Lemma parse_plain top d s r : ~ chars space s -> chars plain s -> r <> "" ->
  parse top d (s ++ "<" ++ r) = push (NText false s) (parse top false ("<" ++ r)).
Proof.
  intros H1 H2 Hr. rewrite parse_eq. unfold step. destruct (skip_ws_text s ("<" ++ r) H1 H2) as (c & y & E & Hc). rewrite E. cbv zeta.
  rewrite !at_diff by (cbn; auto). cbn [append]. rewrite parse_text_char by (eapply chars_impl; [|exact H2]; unfold plain; cbn; tauto).
  destruct (String.eqb_spec r ""); [contradiction|]. rewrite get_str_plain by assumption. reflexivity.
Qed.

(** ** Sequences of nodes *)

Definition pushes (l : list node) (r : pres) : pres := fold_right push r l.

(** [t] becomes [ns] in front of what starts with a tag. *)
Definition Seq (t : string) (ns : list node) : Prop :=
  nonul t /\ forall top x, lt_ahead x -> lt_ahead (t ++ x) /\ parse top false (t ++ x) = pushes ns (parse top false x).
(** The same in front of a closing tag. *)
Definition Body (t : string) (ns : list node) : Prop :=
  nonul t /\ forall x, x <> "" -> parse false false (t ++ "</" ++ x) = pushes ns (parse false false ("</" ++ x)).

Lemma Seq_Body t ns : Seq t ns -> Body t ns.
Proof.
  intros [H0 H]. split; [exact H0|]. intros x _. apply H. exists (String "/" x). reflexivity.
Qed.
Lemma Body_text s : plain_text s -> Body s [NText false s].
Proof.
  intros [H1 H2]. split; [apply plain_nonul, H1|]. intros x _. exact (parse_plain _ _ s (String "/" x) H2 H1 ltac:(discriminate)).
Qed.
Lemma Seq_app t1 n1 t2 n2 : Seq t1 n1 -> Seq t2 n2 -> Seq (t1 ++ t2) (n1 ++ n2).
Proof.
  intros [A1 H1] [A2 H2]. split; [apply chars_app; auto|]. intros top x Hx. destruct (H2 top x Hx) as [L2 E2].
  destruct (H1 top _ L2) as [L1 E1]. rewrite append_assoc. split; [exact L1|]. rewrite E1, E2. unfold pushes. rewrite fold_right_app. reflexivity.
Qed.
Lemma Seq_ws w : chars space w -> Seq w [].
Proof.
  intros H. split; [apply space_nonul, H|]. intros top x Hx. split; [|apply parse_ws; assumption].
  unfold lt_ahead. rewrite skip_ws_app by exact H. exact Hx.
Qed.
Lemma Seq_nil : Seq "" [].
Proof. apply Seq_ws, chars_nil. Qed.
Lemma attrs_nonul l : good_attrs l -> nonul (attrs_text l).
Proof.
  intros [_ H]. induction H as [|[n v] l [H1 H2] H IH]; [apply chars_nil|]. cbn [attrs_text]. apply chars_app. split; [|exact IH].
  cbn [fst snd] in *. unfold attr_text. repeat (apply chars_app; split); try (repeat (apply chars_cons; split; [cbn; discriminate|]); apply chars_nil).
  - apply name_nonul, H1.
  - apply plain_nonul, value_plain, H2.
Qed.
Lemma lit_nonul s : forallb (fun c => negb (b2z c =? 0)) (list_ascii_of_string s) = true -> nonul s.
Proof.
  intros H c Hc. rewrite forallb_forall in H. apply H in Hc. apply negb_true_iff, Z.eqb_neq in Hc. exact Hc.
Qed.
Lemma lit_space s : forallb is_ws (list_ascii_of_string s) = true -> chars space s.
Proof. intros H c Hc. rewrite forallb_forall in H. apply is_ws_space, H, Hc. Qed.

Definition elem_text (n : string) (l : list (string * string)) (t : string) : string :=
  "<" ++ n ++ attrs_text l ++ ">" ++ t ++ "</" ++ n ++ ">".
Definition closed_text (n : string) (l : list (string * string)) : string := "<" ++ n ++ attrs_text l ++ "/>".

Lemma parse_elem top d n l t ns x : xml_name n -> good_attrs l -> Body t ns ->
  parse top d (elem_text n l t ++ x) = push (NElem n l ns) (parse top false x).
Proof.
  intros Hn Hl [_ Ht]. unfold elem_text. rewrite !append_assoc.
  assert (Hq : n ++ ">" ++ x <> "") by (destruct Hn as (c & s & -> & _); discriminate).
  rewrite parse_open; [|assumption|assumption|destruct t; discriminate].
  rewrite (Ht _ Hq), parse_close by assumption.
  assert (E : forall ns r, pushes ns (Done [] r) = Done ns r).
  { clear. induction ns as [|a ns IH]; intros r; [reflexivity|]. cbn [pushes fold_right]. fold (pushes ns (Done [] r)). rewrite IH. reflexivity. }
  rewrite E, String.eqb_refl. reflexivity.
Qed.
Lemma elem_nonul n l t : xml_name n -> good_attrs l -> nonul t -> nonul (elem_text n l t).
Proof.
  intros Hn Hl Ht. unfold elem_text. repeat (apply chars_app; split); try (apply lit_nonul; reflexivity); try (apply name_nonul, Hn).
  - apply attrs_nonul, Hl.
  - exact Ht.
Qed.
Lemma Seq_elem n l t ns : xml_name n -> good_attrs l -> Body t ns -> Seq (elem_text n l t) [NElem n l ns].
Proof.
  intros Hn Hl Ht. split; [apply elem_nonul; [assumption|assumption|apply Ht]|].
  intros top x Hx. split; [eexists; reflexivity|]. rewrite (parse_elem _ _ _ _ _ ns) by assumption. reflexivity.
Qed.
Lemma Seq_closed n l : xml_name n -> good_attrs l -> Seq (closed_text n l) [NElem n l []].
Proof.
  intros Hn Hl. split.
  - unfold closed_text. repeat (apply chars_app; split); try (apply lit_nonul; reflexivity); [apply name_nonul, Hn|apply attrs_nonul, Hl].
  - intros top x Hx. split; [eexists; reflexivity|]. unfold closed_text. rewrite !append_assoc, parse_closed by assumption. reflexivity.
Qed.
Lemma Seq_comment s : nonul s -> (forall x, parse_text "-->" (s ++ "-->" ++ x) = Some (s, x)) -> chars plain s ->
  Seq ("<!--" ++ s ++ "-->") [NComment s].
Proof.
  intros H0 H1 H2. split.
  - repeat (apply chars_app; split); try (apply lit_nonul; reflexivity). exact H0.
  - intros top x Hx. split; [eexists; reflexivity|]. rewrite !append_assoc, parse_eq. unfold step. cbn [append]. cbn [skip_ws]. change (is_ws "<") with false. cbv iota zeta.
    rewrite !at_cons, !at_diff by (cbn; discriminate). rewrite !at_nil. cbn [drop].
    change (String "-" (String "-" (String ">" x))) with ("-->" ++ x). rewrite H1, get_str_plain by assumption. reflexivity.
Qed.
Lemma Seq_many {A} (f : A -> string) (g : A -> list node) l : (forall a, In a l -> Seq (f a) (g a)) ->
  Seq (String.concat "" (map f l)) (flat_map g l).
Proof.
  intros H. induction l as [|a l IH]; [apply Seq_nil|]. cbn [map flat_map].
  assert (E : String.concat "" (f a :: map f l) = f a ++ String.concat "" (map f l)).
  { cbn [String.concat]. destruct (map f l); [rewrite append_nil_r; reflexivity|reflexivity]. }
  rewrite E. apply Seq_app; [apply H; left; reflexivity|]. apply IH. intros b Hb. apply H. right. exact Hb.
Qed.
