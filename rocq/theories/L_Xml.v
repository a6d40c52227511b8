(** The XML parser: enough steps, and what it makes of the kinds of text it may meet. *)

From Coq Require Import ZArith Ascii String List Bool Lia.
From Verif Require Import Base M_Bytes M_Scan M_Xml L_Base L_Text.
Import ListNotations.
Open Scope string_scope.
Open Scope Z_scope.

Notation slen := String.length.

(** ** Lengths *)

Lemma at_split q : forall p, at_ q p = true -> exists r, p = q ++ r.
Proof.
  unfold at_. induction q as [|c q IH]; intros p H; [exists p; reflexivity|]. destruct p as [|d p]; cbn [String.prefix] in H; [discriminate|].
  destruct (ascii_dec c d) as [->|]; [|discriminate]. destruct (IH p H) as [r ->]. exists r. reflexivity.
Qed.
Lemma at_app q r : at_ q (q ++ r) = true.
Proof.
  unfold at_. induction q as [|c q IH]; [destruct r; reflexivity|]. cbn [append String.prefix].
  destruct (ascii_dec c c) as [_|C]; [exact IH|congruence].
Qed.
Lemma drop_app q r : drop (slen q) (q ++ r) = r.
Proof. induction q as [|c q IH]; [reflexivity|]. exact IH. Qed.
Lemma drop_len n : forall s, (slen (drop n s) <= slen s)%nat.
Proof. induction n as [|n IH]; intros [|c s]; cbn; try lia. specialize (IH s). lia. Qed.

Lemma parse_text_split e : forall p t r, parse_text e p = Some (t, r) -> p = t ++ e ++ r.
Proof.
  induction p as [|c p IH]; intros t r H; [discriminate|]. cbn [parse_text] in H.
  destruct (at_ e (String c p)) eqn:A.
  - injection H as <- <-. apply at_split in A. destruct A as [x A]. rewrite A, drop_app. reflexivity.
  - destruct (parse_text e p) as [[a b]|]; [|discriminate]. injection H as <- <-. cbn [append]. f_equal. apply IH. reflexivity.
Qed.
Lemma parse_text_len e p t r : parse_text e p = Some (t, r) -> slen p = (slen t + slen e + slen r)%nat.
Proof. intros H. apply parse_text_split in H. subst p. rewrite !length_append. lia. Qed.

Lemma skip_ws_len s : (slen (skip_ws s) <= slen s)%nat.
Proof. induction s as [|c s IH]; [cbn; lia|]. cbn [skip_ws]. destruct (is_ws c); cbn [slen] in *; lia. Qed.
Lemma skip_ws_idem s : skip_ws (skip_ws s) = skip_ws s.
Proof. induction s as [|c s IH]; [reflexivity|]. cbn [skip_ws]. destruct (is_ws c) eqn:E; [exact IH|]. cbn [skip_ws]. rewrite E. reflexivity. Qed.

Lemma span_split f : forall p a r, span f p = (a, r) -> p = a ++ r.
Proof.
  induction p as [|c p IH]; intros a r H; cbn [span] in H; [injection H as <- <-; reflexivity|].
  destruct (f c); [|injection H as <- <-; reflexivity].
  destruct (span f p) as [x y]. injection H as <- <-. cbn [append]. f_equal. apply IH. reflexivity.
Qed.
Lemma parse_name_split p n r : parse_name p = Some (n, r) -> p = n ++ r /\ n <> "".
Proof.
  destruct p as [|c p]; cbn [parse_name]; [discriminate|]. destruct (name_start c); [|discriminate].
  destruct (span name_char p) as [a b] eqn:E. intros [= <- <-]. split; [|discriminate]. cbn [append]. f_equal. exact (span_split _ _ _ _ E).
Qed.
Lemma parse_name_len p n r : parse_name p = Some (n, r) -> (slen r < slen p)%nat.
Proof.
  intros H. apply parse_name_split in H. destruct H as [-> H]. rewrite length_append. destruct n; [congruence|]. cbn [slen]. lia.
Qed.

Lemma parse_attr_len p n v r : parse_attr p = Some (n, v, r) -> (slen r < slen p)%nat.
Proof.
  unfold parse_attr. destruct (parse_name p) as [[m p1]|] eqn:E1; [|discriminate]. apply parse_name_len in E1.
  pose proof (skip_ws_len p1). destruct (skip_ws p1) as [|c p2]; [discriminate|]. destruct (b2z c =? 61); [|discriminate].
  pose proof (skip_ws_len p2). destruct (skip_ws p2) as [|d p3]; [discriminate|]. destruct (_ || _); [|discriminate].
  destruct (parse_text (String d "") p3) as [[t q]|] eqn:E2; [|discriminate]. intros [= <- <- <-].
  apply parse_text_len in E2. cbn [slen] in *. lia.
Qed.

Lemma parse_attrs_len f : forall acc p a b r, parse_attrs f acc p = AOk a b r -> (slen r < slen p)%nat.
Proof.
  induction f as [|f IH]; intros acc p a b r H; [discriminate|]. cbn [parse_attrs] in H.
  pose proof (skip_ws_len p) as L. destruct (skip_ws p) as [|c p1]; [discriminate|]. cbn [slen] in L.
  destruct (name_start c).
  - destruct (parse_attr (String c p1)) as [[[n v] q]|] eqn:E; [|discriminate]. apply parse_attr_len in E. cbn [slen] in E.
    destruct (attribute acc n); [discriminate|]. apply IH in H. lia.
  - destruct (b2z c =? 62); [injection H as <- <- <-; lia|]. destruct (_ && _); [|discriminate]. injection H as <- <- <-.
    pose proof (drop_len 1 p1). unfold tail. lia.
Qed.
Lemma attrs_fuel f : forall g acc p, (slen p < f)%nat -> (slen p < g)%nat -> parse_attrs f acc p = parse_attrs g acc p.
Proof.
  induction f as [|f IH]; intros [|g] acc p Hf Hg; [lia|lia|lia|]. cbn [parse_attrs].
  pose proof (skip_ws_len p) as L. destruct (skip_ws p) as [|c p1]; [reflexivity|]. cbn [slen] in L.
  destruct (name_start c); [|reflexivity].
  destruct (parse_attr (String c p1)) as [[[n v] q]|] eqn:E; [|reflexivity]. apply parse_attr_len in E. cbn [slen] in E.
  destruct (attribute acc n); [reflexivity|]. apply IH; lia.
Qed.
Definition pattrs (acc : list (string * string)) (p : string) : ares := parse_attrs (S (slen p)) acc p.

(** ** One step *)

Definition step (rec : bool -> bool -> string -> pres) (top decls : bool) (p : string) : pres :=
  let q := skip_ws p in
  match q with
  | "" => Done [] None
  | _ =>
      if at_ "<?" q then
        match parse_text "?>" (drop 2 q) with
        | None => Fail XML_ERROR_PARSING_DECLARATION
        | Some (t, r) =>
            if top && decls then push (NDecl (get_str false t)) (rec top decls r)
            else Fail XML_ERROR_PARSING_DECLARATION
        end
      else if at_ "<!--" q then
        match parse_text "-->" (drop 4 q) with
        | None => Fail XML_ERROR_PARSING_COMMENT
        | Some (t, r) => push (NComment (get_str false t)) (rec top false r)
        end
      else if at_ "<![CDATA[" q then
        match parse_text "]]>" (drop 9 q) with
        | None => Fail XML_ERROR_PARSING_CDATA
        | Some (t, r) => push (NText true (get_str false t)) (rec top false r)
        end
      else if at_ "<!" q then
        match parse_text ">" (drop 2 q) with
        | None => Fail XML_ERROR_PARSING_UNKNOWN
        | Some (t, r) => push (NUnknown (get_str false t)) (rec top false r)
        end
      else if at_ "<" q then
        let q1 := skip_ws (drop 1 q) in
        let closing := at_ "/" q1 in
        match parse_name (if closing then drop 1 q1 else q1) with
        | None => Fail XML_ERROR_PARSING
        | Some (name, q3) =>
            match pattrs [] q3 with
            | AErr e => Fail e
            | AOk attrs true q4 => push (NElem name attrs []) (rec top false q4)
            | AOk attrs false q4 =>
                if closing then Done [] (Some (q4, name))
                else if String.eqb q4 "" then Fail XML_ERROR_MISMATCHED_ELEMENT
                else
                  match rec false false q4 with
                  | Fail e => Fail e
                  | Done _ None => Fail XML_ERROR_PARSING
                  | Done kids (Some (q5, en)) =>
                      if String.eqb en name then push (NElem name attrs kids) (rec top false q5)
                      else Fail XML_ERROR_MISMATCHED_ELEMENT
                  end
            end
        end
      else
        match parse_text "<" p with
        | None => Fail XML_ERROR_PARSING_TEXT
        | Some (t, r) =>
            if String.eqb r "" then Fail XML_ERROR_PARSING
            else push (NText false (get_str true t)) (rec top false ("<" ++ r))
        end
  end.

Lemma nodes_step f top decls p : parse_nodes (S f) top decls p = step (parse_nodes f) top decls p.
Proof. reflexivity. Qed.

(** [P p r]: the property of a result that the steps keep. *)
Lemma push_done n x k e : push n x = Done k e -> exists k', x = Done k' e /\ k = n :: k'.
Proof. destruct x as [z|k' e']; cbn [push]; [discriminate|]. intros [= <- <-]. eauto. Qed.

(** Where a text that is not a tag starts. *)
Lemma text_rest p t r : at_ "<" (skip_ws p) = false -> skip_ws p <> "" -> parse_text "<" p = Some (t, r) -> (1 + slen r < slen p)%nat.
Proof.
  intros A N E. pose proof (parse_text_len _ _ _ _ E) as L. cbn [slen] in L.
  enough (t <> "") by (destruct t; [congruence|cbn [slen] in L; lia]). intros ->.
  apply parse_text_split in E. cbn [append] in E. subst p. change (skip_ws (String "<" r)) with ("<" ++ r) in A. rewrite at_app in A. discriminate.
Qed.

Lemma name_part_len q : (slen (if at_ "/" (skip_ws (drop 1 q)) then drop 1 (skip_ws (drop 1 q)) else skip_ws (drop 1 q)) <= slen q)%nat.
Proof.
  pose proof (drop_len 1 q). pose proof (skip_ws_len (drop 1 q)). pose proof (drop_len 1 (skip_ws (drop 1 q))).
  destruct (at_ "/" (skip_ws (drop 1 q))); lia.
Qed.

Lemma nodes_len f : forall top decls p k r n, parse_nodes f top decls p = Done k (Some (r, n)) -> (slen r < slen p)%nat.
Proof.
  induction f as [|f IH]; intros top decls p k r n H; [discriminate|]. rewrite nodes_step in H. unfold step in H. cbv zeta in H.
  pose proof (skip_ws_len p) as L. destruct (skip_ws p) as [|c q'] eqn:EQ; [discriminate|]. rewrite <- EQ in *. set (q := skip_ws p) in *.
  assert (R : forall e m t x, parse_text e (drop m q) = Some (t, x) -> (slen x <= slen p)%nat).
  { intros e m t x E. apply parse_text_len in E. pose proof (drop_len m q). lia. }
  assert (D : forall top decls x nd, (slen x <= slen p)%nat -> push nd (parse_nodes f top decls x) = Done k (Some (r, n)) -> (slen r < slen p)%nat).
  { intros tp d x nd Lx E. apply push_done in E. destruct E as (k' & E & _). apply IH in E. lia. }
  destruct (at_ "<?" q).
  { destruct (parse_text "?>" (drop 2 q)) as [[t x]|] eqn:E; [|discriminate]. destruct (top && decls); [|discriminate]. eauto. }
  destruct (at_ "<!--" q).
  { destruct (parse_text "-->" (drop 4 q)) as [[t x]|] eqn:E; [|discriminate]. eauto. }
  destruct (at_ "<![CDATA[" q).
  { destruct (parse_text "]]>" (drop 9 q)) as [[t x]|] eqn:E; [|discriminate]. eauto. }
  destruct (at_ "<!" q).
  { destruct (parse_text ">" (drop 2 q)) as [[t x]|] eqn:E; [|discriminate]. eauto. }
  destruct (at_ "<" q) eqn:EL.
  - pose proof (name_part_len q) as NP. destruct (parse_name _) as [[name q3]|] eqn:EN; [|discriminate]. apply parse_name_len in EN.
    unfold pattrs in H. destruct (parse_attrs (S (slen q3)) [] q3) as [e|attrs b q4] eqn:EA; [discriminate|]. apply parse_attrs_len in EA.
    destruct b; [eapply D; [|exact H]; lia|].
    destruct (at_ "/" (skip_ws (drop 1 q))); [injection H as <- <- <-; lia|].
    destruct (String.eqb q4 ""); [discriminate|]. destruct (parse_nodes f false false q4) as [e|kids [[q5 en]|]] eqn:E5; [discriminate| |discriminate].
    apply IH in E5. destruct (String.eqb en name); [|discriminate]. eapply D; [|exact H]. lia.
  - destruct (parse_text "<" p) as [[t x]|] eqn:E; [|discriminate]. apply text_rest in E; [|exact EL|fold q; rewrite EQ; discriminate].
    destruct (String.eqb x ""); [discriminate|]. eapply D; [|exact H]. cbn [append slen]. lia.
Qed.

Lemma step_ext R1 R2 top decls p :
  (forall top d r, (slen r < slen p)%nat -> R1 top d r = R2 top d r) ->
  (forall top d q k r n, R1 top d q = Done k (Some (r, n)) -> (slen r < slen q)%nat) ->
  step R1 top decls p = step R2 top decls p.
Proof.
  intros HE HL. unfold step. cbv zeta.
  pose proof (skip_ws_len p) as L. destruct (skip_ws p) as [|c q'] eqn:EQ; [reflexivity|]. rewrite <- EQ in *. set (q := skip_ws p) in *.
  assert (Hq : (0 < slen q)%nat) by (rewrite EQ; cbn; lia).
  assert (R : forall e m t x, e <> "" -> parse_text e (drop m q) = Some (t, x) -> (slen x < slen p)%nat).
  { intros e m t x Ee E. apply parse_text_len in E. pose proof (drop_len m q). destruct e; [congruence|]. cbn [slen] in E. lia. }
  destruct (at_ "<?" q).
  { destruct (parse_text "?>" (drop 2 q)) as [[t x]|] eqn:E; [|reflexivity]. apply R in E; [|discriminate]. destruct (top && decls); [|reflexivity]. rewrite HE by assumption. reflexivity. }
  destruct (at_ "<!--" q).
  { destruct (parse_text "-->" (drop 4 q)) as [[t x]|] eqn:E; [|reflexivity]. apply R in E; [|discriminate]. rewrite HE by assumption. reflexivity. }
  destruct (at_ "<![CDATA[" q).
  { destruct (parse_text "]]>" (drop 9 q)) as [[t x]|] eqn:E; [|reflexivity]. apply R in E; [|discriminate]. rewrite HE by assumption. reflexivity. }
  destruct (at_ "<!" q).
  { destruct (parse_text ">" (drop 2 q)) as [[t x]|] eqn:E; [|reflexivity]. apply R in E; [|discriminate]. rewrite HE by assumption. reflexivity. }
  destruct (at_ "<" q) eqn:EL.
  - pose proof (name_part_len q) as NP. destruct (parse_name _) as [[name q3]|] eqn:EN; [|reflexivity]. apply parse_name_len in EN.
    unfold pattrs. destruct (parse_attrs (S (slen q3)) [] q3) as [e|attrs b q4] eqn:EA; [reflexivity|]. apply parse_attrs_len in EA.
    destruct b; [rewrite HE by lia; reflexivity|].
    destruct (at_ "/" (skip_ws (drop 1 q))); [reflexivity|].
    destruct (String.eqb q4 ""); [reflexivity|]. rewrite <- HE by lia. destruct (R1 false false q4) as [e|kids [[q5 en]|]] eqn:E5; [reflexivity| |reflexivity].
    apply HL in E5. destruct (String.eqb en name); [|reflexivity]. rewrite HE by lia. reflexivity.
  - destruct (parse_text "<" p) as [[t x]|] eqn:E; [|reflexivity]. apply text_rest in E; [|exact EL|fold q; rewrite EQ; discriminate].
    destruct (String.eqb x ""); [reflexivity|]. rewrite HE by (cbn [append slen]; lia). reflexivity.
Qed.

(** More steps than the length of the text make no difference. *)
Theorem parse_fuel f : forall g top decls p, (slen p < f)%nat -> (slen p < g)%nat ->
  parse_nodes f top decls p = parse_nodes g top decls p.
Proof.
  induction f as [|f IH]; intros [|g] top decls p Hf Hg; [lia|lia|lia|]. rewrite !nodes_step. apply step_ext.
  - intros tp d r Hr. apply IH; lia.
  - intros tp d q k r n H. exact (nodes_len _ _ _ _ _ _ _ H).
Qed.

Definition parse (top decls : bool) (p : string) : pres := parse_nodes (S (slen p)) top decls p.
Lemma parse_eq top decls p : parse top decls p = step parse top decls p.
Proof.
  unfold parse at 1. rewrite nodes_step. apply step_ext.
  - intros tp d r Hr. apply parse_fuel; lia.
  - intros tp d q k r n H. exact (nodes_len _ _ _ _ _ _ _ H).
Qed.
