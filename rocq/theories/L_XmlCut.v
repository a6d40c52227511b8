(** What the XML parser makes of a text whose beginning it accepts, and of a text cut short. *)

From Coq Require Import ZArith Ascii String List Bool Lia.
From Verif Require Import Base M_Bytes M_TecZone M_TecFile Spec_Loop Spec_Tec Spec_Plt Spec_Xml L_Base L_Text L_TecFile L_TecText L_TecWhole
  M_Scan M_Xml M_ReadXml L_Xml L_XmlSeq L_XmlText L_XmlLog.
Import ListNotations.
Open Scope string_scope.
Open Scope Z_scope.

Lemma skip_ws_more p x : skip_ws p <> "" -> skip_ws (p ++ x) = skip_ws p ++ x.
Proof.
  induction p as [|c p IH]; intros H; [contradiction|]. cbn [append skip_ws] in *. destruct (is_ws c); [apply IH, H|reflexivity].
Qed.
Lemma at_true e p x : at_ e p = true -> at_ e (p ++ x) = true.
Proof. intros H. apply at_split in H. destruct H as [r ->]. rewrite append_assoc. apply at_app. Qed.
(** A marker that is found only with the extension. *)
Lemma at_late e : forall p x, at_ e p = false -> at_ e (p ++ x) = true -> at_ p e = true.
Proof.
  unfold at_. induction e as [|c e IH]; intros [|d p] x H1 H2; cbn [append String.prefix] in *; try discriminate; try reflexivity.
  destruct (ascii_dec c d) as [->|]; [|discriminate]. destruct (ascii_dec d d) as [_|C]; [|congruence]. eapply IH; eassumption.
Qed.
Lemma late_len e p x : at_ e p = false -> at_ e (p ++ x) = true -> (slen p < slen e)%nat.
Proof.
  intros H1 H2. pose proof (at_late e p x H1 H2) as H. apply at_split in H. destruct H as [r ->]. rewrite length_append.
  destruct r as [|c r]; [|cbn [slen]; lia]. rewrite append_nil_r in H1. pose proof (at_app p "") as C. rewrite append_nil_r in C. congruence.
Qed.
Lemma drop_more m p x : (m <= slen p)%nat -> drop m (p ++ x) = drop m p ++ x.
Proof.
  revert p. induction m as [|m IH]; intros [|c p] H; cbn [slen] in *; [reflexivity|reflexivity|lia|]. cbn [append drop]. apply IH. lia.
Qed.
Lemma parse_text_more e x : forall p t r, parse_text e p = Some (t, r) -> parse_text e (p ++ x) = Some (t, r ++ x).
Proof.
  induction p as [|c p IH]; intros t r H; [discriminate|]. pose proof (parse_text_len _ _ _ _ H) as L. cbn [parse_text append] in *.
  destruct (at_ e (String c p)) eqn:A.
  - change (String c (p ++ x)) with (String c p ++ x). rewrite (at_true _ _ _ A). injection H as <- <-. f_equal. f_equal. apply drop_more. cbn [slen] in L. 
    apply at_split in A. destruct A as [y ->]. rewrite length_append. lia.
  - destruct (at_ e (String c (p ++ x))) eqn:B; [exfalso; pose proof (late_len e (String c p) x A B); lia|].
    destruct (parse_text e p) as [[a b]|] eqn:E; [|discriminate]. injection H as <- <-. rewrite (IH _ _ eq_refl). reflexivity.
Qed.
Lemma span_more f x : forall p a r, span f p = (a, r) -> r <> "" -> span f (p ++ x) = (a, r ++ x).
Proof.
  induction p as [|c p IH]; intros a r H Hr; cbn [span append] in *; [injection H as <- <-; contradiction|].
  destruct (f c); [|injection H as <- <-; reflexivity]. destruct (span f p) as [a' r'] eqn:E. injection H as <- <-. rewrite (IH _ _ eq_refl Hr). reflexivity.
Qed.
Lemma parse_name_more p n r x : parse_name p = Some (n, r) -> r <> "" -> parse_name (p ++ x) = Some (n, r ++ x).
Proof.
  destruct p as [|c p]; cbn [parse_name append]; [discriminate|]. destruct (name_start c); [|discriminate].
  destruct (span name_char p) as [a b] eqn:E. intros [= <- <-] Hr. rewrite (span_more _ _ _ _ _ E Hr). reflexivity.
Qed.
Lemma parse_attr_more p n v r x : parse_attr p = Some (n, v, r) -> parse_attr (p ++ x) = Some (n, v, r ++ x).
Proof.
  unfold parse_attr. destruct (parse_name p) as [[m p1]|] eqn:E1; [|discriminate].
  destruct (skip_ws p1) as [|c p2] eqn:E2; [discriminate|]. 
  rewrite (parse_name_more _ _ _ x E1) by (intros ->; discriminate). rewrite (skip_ws_more p1 x) by congruence. rewrite E2. cbn [append].
  destruct (b2z c =? 61); [|discriminate]. destruct (skip_ws p2) as [|d p3] eqn:E3; [discriminate|]. rewrite (skip_ws_more p2 x) by congruence. rewrite E3. cbn [append].
  destruct (_ || _); [|discriminate]. destruct (parse_text (String d "") p3) as [[t q]|] eqn:E4; [|discriminate].
  intros [= <- <- <-]. rewrite (parse_text_more _ x _ _ _ E4). reflexivity.
Qed.
Lemma pattrs_more x f : forall acc p a b r, parse_attrs f acc p = AOk a b r -> forall g, (slen (p ++ x) < g)%nat -> parse_attrs g acc (p ++ x) = AOk a b (r ++ x).
Proof.
  induction f as [|f IH]; intros acc p a b r H [|g] Hg; [discriminate|discriminate|lia|]. cbn [parse_attrs] in *.
  destruct (skip_ws p) as [|c p1] eqn:E; [discriminate|]. pose proof (skip_ws_len p) as L. rewrite E in L. cbn [slen] in L.
  rewrite (skip_ws_more p x) by congruence. rewrite E. cbn [append].
  destruct (name_start c).
  - destruct (parse_attr (String c p1)) as [[[n v] q]|] eqn:EA; [|discriminate]. pose proof (parse_attr_len _ _ _ _ EA) as LA. cbn [slen] in LA.
    change (String c (p1 ++ x)) with (String c p1 ++ x). rewrite (parse_attr_more _ _ _ _ x EA).
    destruct (attribute acc n); [discriminate|]. apply IH; [exact H|]. rewrite length_append in *. lia.
  - destruct (b2z c =? 62); [injection H as <- <- <-; reflexivity|]. destruct (b2z c =? 47); cbn [andb] in *; [|discriminate].
    destruct (at_ ">" p1) eqn:A; [|discriminate]. injection H as <- <- <-. rewrite (at_true _ _ x A). unfold tail. rewrite drop_more; [reflexivity|].
    apply at_split in A. destruct A as [y ->]. rewrite length_append. cbn [slen]. lia.
Qed.

(** ** Beginnings of markers *)

Definition stubs : list string := ["<"; "<!"; "<!-"; "<!["; "<![C"; "<![CD"; "<![CDA"; "<![CDAT"; "<![CDATA"].
Lemma stub_fails R top d p : In (skip_ws p) stubs -> exists e, step R top d p = Fail e.
Proof.
  intros H. unfold step. cbv zeta. destruct H as [<-|[<-|[<-|[<-|[<-|[<-|[<-|[<-|[<-|[]]]]]]]]]]; eexists; reflexivity.
Qed.
Lemma at_lit c e q : at_ q (String c e) = true -> q = "" \/ exists q', q = String c q' /\ at_ q' e = true.
Proof.
  unfold at_. destruct q as [|d q]; [left; reflexivity|]. cbn [String.prefix]. destruct (ascii_dec d c) as [->|]; [|discriminate]. intros H. right. eauto.
Qed.
Ltac chop H := apply at_lit in H; destruct H as [->|(?q & -> & H)]; [|try chop H].
Lemma not_stub_at e q x : In e ["<?"; "<!--"; "<![CDATA["; "<!"; "<"] -> q <> "" -> ~ In q stubs -> at_ e (q ++ x) = at_ e q.
Proof.
  intros He Hq Hs. destruct (at_ e q) eqn:A; [apply at_true, A|]. destruct (at_ e (q ++ x)) eqn:B; [|reflexivity]. exfalso.
  pose proof (at_late _ _ _ A B) as C. pose proof (late_len _ _ _ A B) as L. unfold stubs in Hs. cbn [In] in Hs.
  destruct He as [<-|[<-|[<-|[<-|[<-|[]]]]]]; cbn [slen] in L.
  all: repeat (apply at_lit in C; destruct C as [->|(? & -> & C)]; [first [contradiction|tauto]|]); cbn [slen] in L; lia.
Qed.
Lemma stub_dec q : {In q stubs} + {~ In q stubs}.
Proof. apply in_dec, string_dec. Qed.

(** ** Extending a text *)

Definition extends (top d : bool) (p : string) (k : list node) (r : option (string * string)) : Prop :=
  match r with
  | Some (q, en) => forall x, parse top d (p ++ x) = Done k (Some (q ++ x, en))
  | None => exists w d', skip_ws w = "" /\ forall x, parse top d (p ++ x) = pushes k (parse top d' (w ++ x))
  end.
Lemma extends_push top d d' p q n k r : (forall x, parse top d (p ++ x) = push n (parse top d' (q ++ x))) ->
  extends top d' q k r -> extends top d p (n :: k) r.
Proof.
  intros H. destruct r as [[s en]|]; cbn [extends].
  - intros E x. rewrite H, E. reflexivity.
  - intros (w & d2 & Hw & E). exists w, d2. split; [exact Hw|]. intros x. rewrite H, E. reflexivity.
Qed.

Theorem parse_more : forall n p, (slen p < n)%nat -> forall top d k r, parse top d p = Done k r -> extends top d p k r.
Proof.
  induction n as [|n IH]; intros p Hn top d k r H; [lia|]. rewrite parse_eq in H.
  destruct (string_dec (skip_ws p) "") as [E0|E0].
  { unfold step in H. cbv zeta in H. rewrite E0 in H. injection H as <- <-. exists p, d. split; [exact E0|reflexivity]. }
  destruct (stub_dec (skip_ws p)) as [S|NS].
  { destruct (stub_fails parse top d p S) as [e Ee]. congruence. }
  assert (AT : forall e x, In e ["<?"; "<!--"; "<![CDATA["; "<!"; "<"] -> at_ e (skip_ws p ++ x) = at_ e (skip_ws p)) by (intros; apply not_stub_at; assumption).
  pose proof (skip_ws_len p) as L. set (q := skip_ws p) in *.
  assert (HN : forall x, parse top d (p ++ x) = step parse top d (p ++ x)) by (intros; apply parse_eq).
  assert (HQ : forall x, skip_ws (p ++ x) = q ++ x) by (intros; apply skip_ws_more; exact E0).
  assert (HD : forall nd d' y k0 r0, (slen y < slen p)%nat -> push nd (parse top d' y) = Done k0 r0 -> exists k1, k0 = nd :: k1 /\ extends top d' y k1 r0).
  { intros nd d' y k0 r0 Ly E. apply push_done in E. destruct E as (k1 & E & ->). exists k1. split; [reflexivity|]. apply IH; [lia|exact E]. }
  assert (HP : forall e m t y, e <> "" -> (m <= slen q)%nat -> parse_text e (drop m q) = Some (t, y) ->
    (slen y < slen p)%nat /\ forall x, parse_text e (drop m (q ++ x)) = Some (t, y ++ x)).
  { intros e m t y Ee Hm E. split.
    - apply parse_text_len in E. pose proof (drop_len m q). destruct e; [congruence|]. cbn [slen] in E. lia.
    - intros x. rewrite drop_more by exact Hm. apply parse_text_more, E. }
  assert (HA : forall e, at_ e q = true -> (slen e <= slen q)%nat).
  { intros e A. apply at_split in A. destruct A as [y ->]. rewrite length_append. lia. }
  assert (QN : forall x, q ++ x <> "") by (intros x C; destruct q; [congruence|discriminate]).
  (* the step for the extended text *)
  assert (ST : forall x, parse top d (p ++ x) =
     if at_ "<?" q then
        match parse_text "?>" (drop 2 (q ++ x)) with
        | None => Fail XML_ERROR_PARSING_DECLARATION
        | Some (t, r) =>
            if top && d then push (NDecl (get_str false t)) (parse top d r)
            else Fail XML_ERROR_PARSING_DECLARATION
        end
      else if at_ "<!--" q then
        match parse_text "-->" (drop 4 (q ++ x)) with
        | None => Fail XML_ERROR_PARSING_COMMENT
        | Some (t, r) => push (NComment (get_str false t)) (parse top false r)
        end
      else if at_ "<![CDATA[" q then
        match parse_text "]]>" (drop 9 (q ++ x)) with
        | None => Fail XML_ERROR_PARSING_CDATA
        | Some (t, r) => push (NText true (get_str false t)) (parse top false r)
        end
      else if at_ "<!" q then
        match parse_text ">" (drop 2 (q ++ x)) with
        | None => Fail XML_ERROR_PARSING_UNKNOWN
        | Some (t, r) => push (NUnknown (get_str false t)) (parse top false r)
        end
      else if at_ "<" q then
        let q1 := skip_ws (drop 1 (q ++ x)) in
        let closing := at_ "/" q1 in
        match parse_name (if closing then drop 1 q1 else q1) with
        | None => Fail XML_ERROR_PARSING
        | Some (name, q3) =>
            match pattrs [] q3 with
            | AErr e => Fail e
            | AOk attrs true q4 => push (NElem name attrs []) (parse top false q4)
            | AOk attrs false q4 =>
                if closing then Done [] (Some (q4, name))
                else if String.eqb q4 "" then Fail XML_ERROR_MISMATCHED_ELEMENT
                else
                  match parse false false q4 with
                  | Fail e => Fail e
                  | Done _ None => Fail XML_ERROR_PARSING
                  | Done kids (Some (q5, en)) =>
                      if String.eqb en name then push (NElem name attrs kids) (parse top false q5)
                      else Fail XML_ERROR_MISMATCHED_ELEMENT
                  end
            end
        end
      else
        match parse_text "<" (p ++ x) with
        | None => Fail XML_ERROR_PARSING_TEXT
        | Some (t, r) =>
            if String.eqb r "" then Fail XML_ERROR_PARSING
            else push (NText false (get_str true t)) (parse top false ("<" ++ r))
        end).
  { intros x. rewrite HN. unfold step. cbv zeta. rewrite HQ, !AT by (cbn [In]; tauto). specialize (QN x). destruct (q ++ x); [congruence|reflexivity]. }
  unfold step in H. cbv zeta in H. fold q in H.
  assert (HS : forall A (a b : A), match q with "" => a | _ => b end = b) by (intros; destruct q; [congruence|reflexivity]).
  rewrite HS in H. clear HS HN HQ AT NS.
  destruct (at_ "<?" q) eqn:A1.
  { destruct (parse_text "?>" (drop 2 q)) as [[t y]|] eqn:E; [|discriminate]. destruct (HP "?>" 2%nat t y ltac:(discriminate) (HA _ A1) E) as [Ly Py].
    destruct (top && d) eqn:TD; [|discriminate]. destruct (HD _ _ _ _ _ Ly H) as (k1 & -> & X).
    eapply extends_push; [|exact X]. intros x. rewrite ST, Py. reflexivity. }
  destruct (at_ "<!--" q) eqn:A2.
  { destruct (parse_text "-->" (drop 4 q)) as [[t y]|] eqn:E; [|discriminate]. destruct (HP "-->" 4%nat t y ltac:(discriminate) (HA _ A2) E) as [Ly Py].
    destruct (HD _ _ _ _ _ Ly H) as (k1 & -> & X). eapply extends_push; [|exact X]. intros x. rewrite ST, Py. reflexivity. }
  destruct (at_ "<![CDATA[" q) eqn:A3.
  { destruct (parse_text "]]>" (drop 9 q)) as [[t y]|] eqn:E; [|discriminate]. destruct (HP "]]>" 9%nat t y ltac:(discriminate) (HA _ A3) E) as [Ly Py].
    destruct (HD _ _ _ _ _ Ly H) as (k1 & -> & X). eapply extends_push; [|exact X]. intros x. rewrite ST, Py. reflexivity. }
  destruct (at_ "<!" q) eqn:A4.
  { destruct (parse_text ">" (drop 2 q)) as [[t y]|] eqn:E; [|discriminate]. destruct (HP ">" 2%nat t y ltac:(discriminate) (HA _ A4) E) as [Ly Py].
    destruct (HD _ _ _ _ _ Ly H) as (k1 & -> & X). eapply extends_push; [|exact X]. intros x. rewrite ST, Py. reflexivity. }
  destruct (at_ "<" q) eqn:A5.
  - assert (L1 : forall x, drop 1 (q ++ x) = drop 1 q ++ x) by (intros x; apply drop_more, (HA _ A5)).
    pose proof (name_part_len q) as NP. set (q1 := skip_ws (drop 1 q)) in *.
    destruct (parse_name (if at_ "/" q1 then drop 1 q1 else q1)) as [[name q3]|] eqn:EN; [|discriminate].
    pose proof (parse_name_len _ _ _ EN) as LN.
    destruct (pattrs [] q3) as [e|attrs b q4] eqn:EA; [discriminate|]. pose proof (parse_attrs_len _ _ _ _ _ _ EA) as LA.
    assert (Q3 : q3 <> "") by (intros ->; cbn [slen] in LA; lia).
    assert (Q1 : q1 <> "") by (intros C; rewrite C in EN; discriminate).
    assert (SX : forall x, skip_ws (drop 1 (q ++ x)) = q1 ++ x) by (intros x; rewrite L1; apply skip_ws_more; exact Q1).
    assert (CX : forall x, at_ "/" (q1 ++ x) = at_ "/" q1).
    { intros x. destruct q1 as [|c y]; [congruence|]. cbn [append]. unfold at_. cbn [String.prefix]. destruct (ascii_dec "/" c); [destruct y, x; reflexivity|reflexivity]. }
    assert (NX : forall x, parse_name (if at_ "/" q1 then drop 1 (q1 ++ x) else q1 ++ x) = Some (name, q3 ++ x)).
    { intros x. rewrite <- (parse_name_more _ _ _ x EN Q3). destruct (at_ "/" q1); [|reflexivity]. f_equal. apply drop_more. destruct q1; [congruence|cbn [slen]; lia]. }
    assert (PX : forall x, pattrs [] (q3 ++ x) = AOk attrs b (q4 ++ x)) by (intros x; unfold pattrs; eapply pattrs_more; [exact EA|lia]).
    destruct b.
    + destruct (HD (NElem name attrs []) false q4 k r) as (k1 & -> & X); [lia|exact H|].
      eapply extends_push; [|exact X]. intros x. rewrite ST. cbv zeta. rewrite SX, CX, NX, PX. reflexivity.
    + destruct (at_ "/" q1) eqn:CL.
      { injection H as <- <-. intros x. rewrite ST. cbv zeta. rewrite SX, CX, NX, PX. reflexivity. }
      destruct (String.eqb_spec q4 "") as [C4|C4]; [discriminate|].
      destruct (parse false false q4) as [e|kids [[q5 en]|]] eqn:E5; [discriminate| |discriminate].
      pose proof (nodes_len _ _ _ _ _ _ _ E5) as L5. apply IH in E5; [|lia]. cbn [extends] in E5.
      destruct (String.eqb_spec en name) as [->|]; [|discriminate].
      destruct (HD (NElem name attrs kids) false q5 k r) as (k1 & -> & X); [lia|exact H|].
      eapply extends_push; [|exact X]. intros x. rewrite ST. cbv zeta. rewrite SX, CX, NX, PX.
      assert (C5 : String.eqb (q4 ++ x) "" = false) by (destruct q4; [congruence|reflexivity]). rewrite C5, E5, String.eqb_refl. reflexivity.
  - destruct (parse_text "<" p) as [[t y]|] eqn:E; [|discriminate]. pose proof (text_rest p t y A5 E0 E) as LT.
    destruct (String.eqb_spec y "") as [|Cy]; [discriminate|].
    destruct (HD (NText false (get_str true t)) false ("<" ++ y) k r) as (k1 & -> & X); [cbn [append slen]; lia|exact H|].
    eapply extends_push; [|exact X]. intros x. rewrite ST, (parse_text_more _ x _ _ _ E).
    assert (C5 : String.eqb (y ++ x) "" = false) by (destruct y; [congruence|reflexivity]). rewrite C5. reflexivity.
Qed.

(** ** Logs cut short *)

Lemma done_nothing top d p : parse top d p = Done [] None -> skip_ws p = "".
Proof.
  rewrite parse_eq. unfold step. cbv zeta. destruct (skip_ws p) as [|c q]; [reflexivity|]. intros H. exfalso. revert H.
  assert (D : forall nd y, push nd y = Done [] None -> False) by (intros nd y C; apply push_done in C; destruct C as (k & _ & C); discriminate).
  repeat match goal with
  | |- Fail _ = _ -> _ => discriminate
  | |- Done _ (Some _) = _ -> _ => discriminate
  | |- push _ _ = _ -> _ => apply D
  | |- context [if ?b then _ else _] => destruct b
  | |- context [match ?b with _ => _ end] => destruct b
  end.
Qed.
Lemma pushes_done ns r k e : pushes ns r = Done k e -> exists k', r = Done k' e /\ k = (ns ++ k')%list.
Proof.
  revert k. induction ns as [|n ns IH]; intros k H; [exists k; auto|]. cbn [pushes fold_right] in H. apply push_done in H.
  destruct H as (k1 & H & ->). destruct (IH k1 H) as (k' & E & ->). exists k'. auto.
Qed.
Lemma blank_space w : skip_ws w = "" -> chars space w.
Proof.
  induction w as [|c w IH]; intros H; [apply chars_nil|]. cbn [skip_ws] in H. destruct (is_ws c) eqn:E; [|discriminate].
  apply chars_cons. split; [apply is_ws_space, E|apply IH, H].
Qed.

Lemma cut_load y p x dn fn : nonul (xml_line ++ y) -> is_elem dn = false -> parse true true (xml_line ++ y) = Done [dn; fn] None ->
  xml_line ++ y = p ++ x -> ~ chars space x ->
  match load_text p with inr _ => True | inl k => child (NElem "" [] k) "File" = None end.
Proof.
  intros NN Hd EP E Hx. destruct p as [|c p]; [reflexivity|].
  assert (NP : nonul (String c p)) by (rewrite E in NN; apply chars_app in NN; apply NN).
  assert (Hc : c = "<"%char) by (cbn [xml_line append] in E; congruence). subst c.
  rewrite (load_parse _ (String "<" p) NP) by (reflexivity || discriminate).
  destruct (parse true true (String "<" p)) as [e|k r] eqn:PP; [exact I|].
  pose proof (parse_more _ _ (Nat.lt_succ_diag_r _) _ _ _ _ PP) as X. rewrite E in EP.
  destruct r as [[q en]|]; cbn [extends] in X; [rewrite X in EP; discriminate|].
  destruct X as (w & d' & Hw & X). rewrite X in EP. apply pushes_done in EP. destruct EP as (k' & EP & Ek).
  unfold child, elems. cbn [kids].
  destruct k as [|k1 k]; [reflexivity|]. injection Ek as <- Ek. cbn [filter]. rewrite Hd.
  destruct k as [|k2 k]; [reflexivity|]. injection Ek as <- Ek. symmetry in Ek. apply app_eq_nil in Ek. destruct Ek as [-> ->].
  apply done_nothing in EP. apply blank_space, chars_app in EP. tauto.
Qed.

Theorem log_cut e f s g u depth t p x :
  file_wf f -> plt_size f < 2 ^ 63 -> write_plt e f = Ret (s, g) u -> xml_plain f -> chars plain (e_begin e) ->
  xml_file g depth = Ok t -> t = p ++ x -> ~ chars space x ->
  forall fs file, fs (c_str file) = Some (list_ascii_of_string p) -> exists m, read_log fs file = Err (ETec m).
Proof.
  intros Hw Hs E Hx Hb Et Ep Hc fs file Efs.
  pose proof (write_spec e f Hw Hs) as H. rewrite E in H.
  destruct H as (_ & _ & _ & _ & pvs & _ & _ & _ & Hzz & _ & Hf & Hbeg & _ & _ & _ & _ & _ & _ & _ & gs & tt & Eg & Hbare).
  assert (HX : Forall (fun z => zl_xml z = []) gs) by (clear - Hbare; induction Hbare as [|z g' zs gs (_ & _ & _ & H) H2 IH]; constructor; assumption).
  destruct (gen_texts_text _ _ Eg eq_refl HX) as (ET & EZ & _).
  rewrite <- Hf in Hx. rewrite <- Hf in Hzz. rewrite <- Hbeg in Hb.
  destruct (file_parses g (fl_xml g) depth ET eq_refl EZ Hx Hzz Hb) as (y & Ex & NX & dn & Hdn & EP).
  assert (Et' : xml_line ++ y = p ++ x) by congruence.
  pose proof (cut_load y p x dn _ NX Hdn EP Et' Hc) as CL.
  unfold read_log, load_xml. rewrite Efs, string_of_list_ascii_of_string.
  destruct (load_text p) as [k|er]; [|eexists; reflexivity]. change (c_str "File") with "File". rewrite CL. eexists. reflexivity.
Qed.
