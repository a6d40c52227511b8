(** The JSON text of a log. *)

From Coq Require Import ZArith Ascii String List Bool Lia.
From Verif Require Import Base M_Bytes M_TecZone M_TecFile Spec_Loop Spec_Tec Spec_Plt Spec_Aux Spec_Xml Spec_Json L_Base L_Loop L_TecZone L_TecMin L_Text L_Plt
  L_TecWrite L_TecFile L_TecText L_TecWhole L_TecProp L_Aux L_ReadLog
  M_Scan M_Xml M_ReadXml L_Scan L_ScanF L_Near L_Xml L_XmlSeq L_XmlText L_XmlLog L_Json.
Import ListNotations.
Open Scope string_scope.
Open Scope Z_scope.

Notation blanks := L_Json.blanks.

(** ** Reading members, elements and values *)

Lemma rd_some {A} (X : string -> option A -> Prop) s v : X s (Some v) -> rd X s (eq v) True.
Proof. intros H. exists (Some v). split; [exact H|]. auto. Qed.
Lemma rd_impl {A} (X : string -> option A -> Prop) s (P P' : A -> Prop) (g g' : Prop) :
  (forall a, P a -> P' a) -> (g <-> g') -> rd X s P g -> rd X s P' g'.
Proof.
  intros HP Hg (o & H1 & H2). exists o. split; [exact H1|]. destruct o as [v|]; [|tauto]. destruct H2 as [H2 H3]. split; [tauto|apply HP, H3].
Qed.
Lemma rd_text {A} (X : string -> option A -> Prop) s s' P g : s' = s -> rd X s P g -> rd X s' P g.
Proof. intros ->. auto. Qed.

Definition cons_of {A} (P : A -> Prop) (R : list A -> Prop) (l : list A) : Prop := exists a l', l = a :: l' /\ P a /\ R l'.
Definition pair_of (k : string) (P : json -> Prop) (p : string * json) : Prop := exists v, p = (k, v) /\ P v.

Lemma rd_cons {A} (P : A -> Prop) R (o : option A) (l : option (list A)) (g h : Prop) :
  match o with Some a => g /\ P a | None => ~ g end -> match l with Some l => h /\ R l | None => ~ h end ->
  match ocons o l with Some l => (g /\ h) /\ cons_of P R l | None => ~ (g /\ h) end.
Proof.
  intros Ho Hl. destruct o as [a|]; [destruct l as [l|]|]; cbn [ocons]; try tauto. destruct Ho, Hl. split; [tauto|]. exists a, l. auto.
Qed.
Lemma rd_pair k (P : json -> Prop) o (g : Prop) : match o with Some a => g /\ P a | None => ~ g end ->
  match omem k o with Some a => g /\ pair_of k P a | None => ~ g end.
Proof. destruct o as [v|]; [|auto]. intros [H1 H2]. split; [exact H1|]. exists v. auto. Qed.

Lemma rd_blanks w s P g : blanks w -> reads s P g -> reads (w ++ s) P g.
Proof. intros Hw (o & H1 & H2). exists o. split; [apply JT_blanks; assumption|exact H2]. Qed.
Lemma rd_el_blanks w s P g : blanks w -> rd EL s P g -> rd EL (w ++ s) P g.
Proof. intros Hw (o & H1 & H2). exists o. split; [apply EL_blanks; assumption|exact H2]. Qed.
Lemma rd_mb_blanks w s P g : blanks w -> rd MB s P g -> rd MB (w ++ s) P g.
Proof. intros Hw (o & H1 & H2). exists o. split; [apply MB_blanks; assumption|exact H2]. Qed.

Lemma rd_el_last s w P g : reads s P g -> blanks w -> rd EL (s ++ w ++ "]") (cons_of P (eq [])) (g /\ True).
Proof. intros (o & H1 & H2) Hw. eexists. split; [apply EL_last; eassumption|]. apply rd_cons; [exact H2|]. auto. Qed.
Lemma rd_el_more s w t P R g h : reads s P g -> blanks w -> rd EL t R h -> rd EL (s ++ w ++ "," ++ t) (cons_of P R) (g /\ h).
Proof. intros (o & H1 & H2) Hw (l & H3 & H4). eexists. split; [apply EL_more; eassumption|]. apply rd_cons; assumption. Qed.
Lemma rd_mb_last w0 k w1 s w P g : blanks w0 -> json_text k -> blanks w1 -> reads s P g -> blanks w ->
  rd MB (w0 ++ Q ++ k ++ Q ++ w1 ++ ":" ++ s ++ w ++ "}") (cons_of (pair_of k P) (eq [])) (g /\ True).
Proof. intros H0 Hk H1 (o & H2 & H3) Hw. eexists. split; [apply MB_last; eassumption|]. apply rd_cons; [apply rd_pair, H3|]. auto. Qed.
Lemma rd_mb_more w0 k w1 s w t P R g h : blanks w0 -> json_text k -> blanks w1 -> reads s P g -> blanks w -> rd MB t R h ->
  rd MB (w0 ++ Q ++ k ++ Q ++ w1 ++ ":" ++ s ++ w ++ "," ++ t) (cons_of (pair_of k P) R) (g /\ h).
Proof. intros H0 Hk H1 (o & H2 & H3) Hw (l & H4 & H5). eexists. split; [apply MB_more; eassumption|]. apply rd_cons; [apply rd_pair, H3|exact H5]. Qed.
Definition arr_of (R : list json -> Prop) (j : json) : Prop := exists l, j = JArr l /\ R l.
Definition obj_of (R : list (string * json) -> Prop) (j : json) : Prop := exists l, j = JObj l /\ R l.
Lemma rd_arr s R g : rd EL s R g -> reads ("[" ++ s) (arr_of R) g.
Proof.
  intros (l & H1 & H2). eexists. split; [apply JT_arr; eassumption|]. destruct l as [l|]; [|exact H2]. destruct H2 as [H2 H3]. split; [exact H2|]. exists l. auto.
Qed.
Lemma rd_obj s R g : rd MB s R g -> reads ("{" ++ s) (obj_of R) g.
Proof.
  intros (l & H1 & H2). eexists. split; [apply JT_obj; eassumption|]. destruct l as [l|]; [|exact H2]. destruct H2 as [H2 H3]. split; [exact H2|]. exists l. auto.
Qed.

(** ** Lines *)

Lemma lit_blanks s : forallb (fun c => jws (b2z c)) (list_ascii_of_string s) = true -> blanks s.
Proof. intros H c Hc. rewrite forallb_forall in H. apply H, Hc. Qed.
Lemma tabs_blanks d : blanks (tabs d).
Proof. induction d as [|d IH]; [apply chars_nil|]. cbn [tabs]. apply chars_app. split; [apply lit_blanks; reflexivity|exact IH]. Qed.
Lemma blanks_app a b : blanks a -> blanks b -> blanks (a ++ b).
Proof. intros Ha Hb. apply chars_app. split; assumption. Qed.
Ltac bl := repeat apply blanks_app; first [apply tabs_blanks|apply lit_blanks; reflexivity].
Lemma json_nonul s : json_text s -> nonul s.
Proof. apply chars_impl. lia. Qed.
Lemma lit_json s : forallb (fun c => let n := b2z c in (32 <=? n) && negb (n =? 34) && negb (n =? 92)) (list_ascii_of_string s) = true -> json_text s.
Proof.
  apply (lit_chars (fun n => 32 <= n /\ n <> 34 /\ n <> 92) (fun n => (32 <=? n) && negb (n =? 34) && negb (n =? 92))).
  intros n. rewrite !andb_true_iff, !negb_true_iff, !Z.eqb_neq, Z.leb_le. tauto.
Qed.
Lemma num_nonul s : num_text s -> nonul s.
Proof. intros H. apply plain_nonul, num_chars, H. Qed.
Ltac nn := repeat (apply chars_app; split); first [apply lit_nonul; reflexivity|apply num_nonul; first [apply num_i|apply num_li|apply num_le|apply num_lf]|assumption|apply json_nonul; assumption].

(** A line with one member. *)
Lemma rd_line d k v rest P R g h : json_text k -> nonul v -> reads v P g -> rd MB rest R h ->
  rd MB (line_out d (TAB ++ Q ++ k ++ Q ++ " : " ++ v ++ " ,") ++ rest) (cons_of (pair_of k P) R) (g /\ h).
Proof.
  intros Hk Hv H1 H2. rewrite line_plain by nn.
  apply (rd_text MB ((tabs d ++ TAB) ++ Q ++ k ++ Q ++ " " ++ ":" ++ (" " ++ v) ++ " " ++ "," ++ (NL ++ rest))).
  { rewrite ?append_assoc. cbn [append]. rewrite ?append_assoc. reflexivity. }
  apply rd_mb_more; [bl|exact Hk|bl|apply rd_blanks; [bl|exact H1]|bl|]. apply rd_mb_blanks; [bl|exact H2].
Qed.
Lemma rd_str_line d k s rest R h : json_text k -> json_text s -> rd MB rest R h ->
  rd MB (line_out d (TAB ++ Q ++ k ++ Q ++ " : " ++ Q ++ s ++ Q ++ " ,") ++ rest) (cons_of (eq (k, JStr s)) R) h.
Proof.
  intros Hk Hs H. apply (rd_text MB (line_out d (TAB ++ Q ++ k ++ Q ++ " : " ++ (Q ++ s ++ Q) ++ " ,") ++ rest)); [rewrite ?append_assoc; reflexivity|].
  eapply rd_impl; [| |apply rd_line; [exact Hk| |apply rd_some, JT_str, Hs|exact H]].
  - intros l (a & l' & -> & (v & -> & <-) & Hl). exists (k, JStr s), l'. auto.
  - tauto.
  - nn.
Qed.
Lemma rd_int_line d k z rest R h : json_text k -> in_int z -> rd MB rest R h ->
  rd MB (line_out d (TAB ++ Q ++ k ++ Q ++ " : " ++ fmt_i z ++ " ,") ++ rest) (cons_of (eq (k, jint z)) R) h.
Proof.
  intros Hk Hz H. eapply rd_impl; [| |apply rd_line; [exact Hk| |apply rd_some, JT_i, Hz|exact H]].
  - intros l (a & l' & -> & (v & -> & <-) & Hl). exists (k, jint z), l'. auto.
  - tauto.
  - nn.
Qed.

Lemma rd_3 a b c P : (forall l, P l <-> l = [jint a; jint b; jint c]) -> in_int a -> in_int b -> in_int c ->
  rd EL (" " ++ fmt_i a ++ ", " ++ fmt_i b ++ ", " ++ fmt_i c ++ " ]") P True.
Proof.
  intros HP Ha Hb Hc. apply (rd_text EL (" " ++ (fmt_i a ++ "" ++ "," ++ (" " ++ (fmt_i b ++ "" ++ "," ++ (" " ++ (fmt_i c ++ " " ++ "]"))))))).
  { cbn [append]. reflexivity. }
  eapply rd_impl; [| |apply rd_el_blanks; [bl|]; apply rd_el_more; [apply rd_some, JT_i, Ha|bl|]; apply rd_el_blanks; [bl|];
    apply rd_el_more; [apply rd_some, JT_i, Hb|bl|]; apply rd_el_blanks; [bl|]; apply rd_el_last; [apply rd_some, JT_i, Hc|bl]].
  - intros l (x & l1 & -> & <- & y & l2 & -> & <- & w & l3 & -> & <- & <-). apply HP. reflexivity.
  - tauto.
Qed.
Lemma rd_int3_line d k v rest R h : json_text k -> ints3 v -> rd MB rest R h ->
  rd MB (line_out d (line_text (json3 k v)) ++ rest) (cons_of (eq (k, jint3 v)) R) h.
Proof.
  intros Hk (H0 & H1 & H2) H. unfold json3. cbn [line_text piece_text]. rewrite append_nil_r.
  apply (rd_text MB (line_out d (TAB ++ Q ++ k ++ Q ++ " : " ++ ("[" ++ (" " ++ fmt_i (x0 v) ++ ", " ++ fmt_i (x1 v) ++ ", " ++ fmt_i (x2 v) ++ " ]")) ++ " ,") ++ rest)).
  { f_equal. f_equal. rewrite ?append_assoc. cbn [append]. rewrite ?append_assoc. reflexivity. }
  eapply rd_impl; [| |apply rd_line; [exact Hk| |apply rd_arr, (rd_3 _ _ _ (eq [jint (x0 v); jint (x1 v); jint (x2 v)])); [split; auto|exact H0|exact H1|exact H2]|exact H]].
  - intros l (a & l' & -> & (j & -> & m & -> & <-) & Hl). exists (k, jint3 v), l'. auto.
  - tauto.
  - nn.
Qed.

(** A value that goes over several lines: [op] opens it, [cl] closes it. *)
Lemma rd_block d k op body cl rest P R g h : json_text k -> nonul op -> nonul cl ->
  reads (op ++ NL ++ body ++ tabs d ++ TAB ++ cl) P g -> rd MB rest R h ->
  rd MB (line_out d (TAB ++ Q ++ k ++ Q ++ " : " ++ op) ++ body ++ line_out d (TAB ++ cl ++ " ,") ++ rest) (cons_of (pair_of k P) R) (g /\ h).
Proof.
  intros Hk Ho Hc H1 H2. rewrite !line_plain by nn.
  apply (rd_text MB ((tabs d ++ TAB) ++ Q ++ k ++ Q ++ " " ++ ":" ++ (" " ++ (op ++ NL ++ body ++ tabs d ++ TAB ++ cl)) ++ " " ++ "," ++ (NL ++ rest))).
  { rewrite ?append_assoc. cbn [append]. rewrite ?append_assoc. reflexivity. }
  apply rd_mb_more; [bl|exact Hk|bl|apply rd_blanks; [bl|exact H1]|bl|]. apply rd_mb_blanks; [bl|exact H2].
Qed.

(** ** Auxiliary data *)

Lemma marked_cons {A} (a b : A) l : marked (a :: b :: l) = (a, true) :: marked (b :: l).
Proof. reflexivity. Qed.
Definition aux_line (pm : string * string * bool) : list piece :=
  let '(p, m) := pm in
  Buf (TAB ++ TAB ++ Q ++ c_str (fst p) ++ Q ++ " : " ++ Q ++ c_str (snd p) ++ Q) :: (if m : bool then [Lit ","] else []).
Definition aux_member (p : string * string) : string * json := (fst p, JStr (snd p)).
Lemma aux_members d p : forall a, json_aux (p :: a) ->
  rd MB (zone_text_out d (map line_text (map aux_line (marked (p :: a)))) ++ tabs d ++ TAB ++ "}") (eq (map aux_member (p :: a))) True.
Proof.
  intros a. revert p. induction a as [|q a IH]; intros [k v] H; inversion_clear H as [|? ? [H1 H2] H3]; cbn [fst snd] in *.
  - cbn [marked map aux_line fst snd line_text piece_text]. rewrite out_cons. cbn [zone_text_out map String.concat]. rewrite !append_nil_r.
    rewrite !c_str_id by (apply json_nonul; assumption). rewrite line_plain by nn.
    apply (rd_text MB ((tabs d ++ TAB ++ TAB) ++ Q ++ k ++ Q ++ " " ++ ":" ++ (" " ++ (Q ++ v ++ Q)) ++ (NL ++ tabs d ++ TAB) ++ "}")).
    { rewrite ?append_assoc. cbn [append]. rewrite ?append_assoc. reflexivity. }
    eapply rd_impl; [| |apply rd_mb_last; [bl|exact H1|bl|apply rd_blanks; [bl|apply rd_some, JT_str, H2]|bl]].
    + intros l (y & l' & -> & (j & -> & <-) & <-). reflexivity.
    + tauto.
  - rewrite marked_cons. cbn [map]. rewrite out_cons. unfold aux_line at 1. cbn [fst snd line_text piece_text]. rewrite append_nil_r.
    rewrite !c_str_id by (apply json_nonul; assumption). rewrite line_plain by nn.
    set (T := zone_text_out _ _).
    apply (rd_text MB ((tabs d ++ TAB ++ TAB) ++ Q ++ k ++ Q ++ " " ++ ":" ++ (" " ++ (Q ++ v ++ Q)) ++ "" ++ "," ++ (NL ++ (T ++ tabs d ++ TAB ++ "}")))).
    { rewrite ?append_assoc. cbn [append]. rewrite ?append_assoc. reflexivity. }
    eapply rd_impl; [| |apply rd_mb_more; [bl|exact H1|bl|apply rd_blanks; [bl|apply rd_some, JT_str, H2]|bl|apply rd_mb_blanks; [bl|apply (IH q), H3]]].
    + intros l (y & l' & -> & (j & -> & <-) & <-). reflexivity.
    + tauto.
Qed.
Definition app_of {A} (l0 : list A) (R : list A -> Prop) (l : list A) : Prop := exists l', l = (l0 ++ l')%list /\ R l'.
Lemma rd_aux d a rest R h : json_aux a -> rd MB rest R h ->
  rd MB (zone_text_out d (map line_text (aux_json a)) ++ rest) (app_of (says_aux a) R) h.
Proof.
  intros Ha H. destruct a as [|p a].
  - cbn [aux_json map zone_text_out String.concat append]. eapply rd_impl; [| |exact H]; [|tauto]. intros l Hl. exists l. auto.
  - unfold aux_json. rewrite !map_app, !out_app. cbn [map line_text piece_text]. rewrite !append_nil_r.
    change (map (fun pm => let '(p, m) := pm in Buf (TAB ++ TAB ++ Q ++ c_str (fst p) ++ Q ++ " : " ++ Q ++ c_str (snd p) ++ Q) :: (if m : bool then [Lit ","] else [])) (marked (p :: a)))
      with (map aux_line (marked (p :: a))).
    set (T := zone_text_out d (map line_text (map aux_line _))). rewrite !out_cons. cbn [zone_text_out map String.concat]. rewrite !append_nil_r.
    apply (rd_text MB (line_out d (TAB ++ Q ++ "Auxiliary" ++ Q ++ " : " ++ "{") ++ T ++ line_out d (TAB ++ "}" ++ " ,") ++ rest)).
    { rewrite ?append_assoc. reflexivity. }
    eapply rd_impl; [| |apply rd_block; [apply lit_json; reflexivity|nn|nn| |exact H]].
    3: { apply rd_obj. apply rd_mb_blanks; [bl|]. apply (aux_members d p a Ha). }
    + intros l (y & l' & -> & (j & -> & m & -> & <-) & Hl). exists l'. split; [reflexivity|exact Hl].
    + tauto.
Qed.

(** ** Data *)

Definition data_text (d : data_log) : string :=
  "{ " ++ Q ++ "type" ++ Q ++ ":" ++ fmt_i (dl_type d) ++ ", " ++
  Q ++ "size_i" ++ Q ++ ":" ++ fmt_i (sz2i (dl_size d)) ++ ", " ++
  Q ++ "file_pt" ++ Q ++ ":" ++ fmt_li (dl_pt d) ++ ", " ++
  Q ++ "min" ++ Q ++ ":" ++ fmt_le (dl_min d) ++ ", " ++
  Q ++ "max" ++ Q ++ ":" ++ fmt_le (dl_max d) ++ " }".
Lemma rd_data d : data_ints d -> reads (data_text d) (says_data d) (finite_data d).
Proof.
  intros (I1 & I2 & I3). unfold data_text. rewrite sz2i_size by exact I2.
  assert (I2' : in_int (dl_size d)) by (unfold in_int; lia).
  apply (rd_text JT ("{" ++ (" " ++ Q ++ "type" ++ Q ++ "" ++ ":" ++ fmt_i (dl_type d) ++ "" ++ "," ++
    (" " ++ Q ++ "size_i" ++ Q ++ "" ++ ":" ++ fmt_i (dl_size d) ++ "" ++ "," ++
    (" " ++ Q ++ "file_pt" ++ Q ++ "" ++ ":" ++ fmt_li (dl_pt d) ++ "" ++ "," ++
    (" " ++ Q ++ "min" ++ Q ++ "" ++ ":" ++ fmt_le (dl_min d) ++ "" ++ "," ++
    (" " ++ Q ++ "max" ++ Q ++ "" ++ ":" ++ fmt_le (dl_max d) ++ " " ++ "}"))))))).
  { cbn [append]. reflexivity. }
  eapply rd_impl; [| |apply rd_obj;
    apply rd_mb_more; [bl|apply lit_json; reflexivity|bl|apply rd_some, JT_i, I1|bl|];
    apply rd_mb_more; [bl|apply lit_json; reflexivity|bl|apply rd_some, JT_i, I2'|bl|];
    apply rd_mb_more; [bl|apply lit_json; reflexivity|bl|apply rd_some, JT_li, I3|bl|];
    apply rd_mb_more; [bl|apply lit_json; reflexivity|bl|apply reads_le|bl|];
    apply rd_mb_last; [bl|apply lit_json; reflexivity|bl|apply reads_le|bl]].
  - intros j (l & -> & y1 & l1 & -> & (j1 & -> & <-) & y2 & l2 & -> & (j2 & -> & <-) & y3 & l3 & -> & (j3 & -> & <-) & y4 & l4 & -> & (j4 & -> & P4) &
      y5 & l5 & -> & (j5 & -> & P5) & <-).
    exists j4, j5. auto.
  - unfold finite_data. tauto.
Qed.
Definition data_line (pm : data_log * bool) : list piece :=
  let '(d, m) := pm in
  Buf (TAB ++ TAB ++ "{ " ++ Q ++ "type" ++ Q ++ ":" ++ fmt_i (dl_type d) ++ ", " ++
              Q ++ "size_i" ++ Q ++ ":" ++ fmt_i (sz2i (dl_size d)) ++ ", " ++
              Q ++ "file_pt" ++ Q ++ ":" ++ fmt_li (dl_pt d) ++ ", " ++
              Q ++ "min" ++ Q ++ ":" ++ fmt_le (dl_min d) ++ ", " ++
              Q ++ "max" ++ Q ++ ":" ++ fmt_le (dl_max d) ++ " }") :: (if m : bool then [Lit ","] else []).
Lemma data_nonul d : nonul (data_text d).
Proof. unfold data_text. nn. Qed.
Lemma data_elements k p : forall a, Forall data_ints (p :: a) ->
  rd EL (zone_text_out k (map line_text (map data_line (marked (p :: a)))) ++ tabs k ++ TAB ++ "]") (Forall2 says_data (p :: a)) (Forall finite_data (p :: a)).
Proof.
  intros a. revert p. induction a as [|q a IH]; intros p H; inversion_clear H as [|? ? H1 H2].
  - cbn [marked map]. rewrite out_cons. change (line_text (data_line (p, false))) with ((TAB ++ TAB ++ data_text p) ++ "").
    cbn [zone_text_out map String.concat]. rewrite !append_nil_r. pose proof (data_nonul p) as NP. rewrite line_plain by nn.
    apply (rd_text EL ((tabs k ++ TAB ++ TAB) ++ data_text p ++ (NL ++ tabs k ++ TAB) ++ "]")).
    { rewrite ?append_assoc. cbn [append]. rewrite ?append_assoc. reflexivity. }
    eapply rd_impl; [| |apply rd_el_blanks; [bl|]; apply rd_el_last; [apply rd_data, H1|bl]].
    + intros l (y & l' & -> & Py & <-). constructor; [exact Py|constructor].
    + split; [intros [F _]; constructor; [exact F|constructor]|]. intros F. inversion_clear F. auto.
  - rewrite marked_cons. cbn [map]. rewrite out_cons. change (line_text (data_line (p, true))) with ((TAB ++ TAB ++ data_text p) ++ ",").
    pose proof (data_nonul p) as NP. rewrite line_plain by nn. specialize (IH q H2). cbn [map] in IH. set (T := zone_text_out _ _) in *.
    apply (rd_text EL ((tabs k ++ TAB ++ TAB) ++ data_text p ++ "" ++ "," ++ (NL ++ (T ++ tabs k ++ TAB ++ "]")))).
    { rewrite ?append_assoc. cbn [append]. rewrite ?append_assoc. reflexivity. }
    eapply rd_impl; [| |apply rd_el_blanks; [bl|]; apply rd_el_more; [apply rd_data, H1|bl|apply rd_el_blanks; [bl|exact IH]]].
    + intros l (y & l' & -> & Py & Pl). constructor; assumption.
    + split; [intros [F F']; constructor; assumption|]. intros F. inversion_clear F. auto.
Qed.

(** ** Zones *)

Lemma zone_value d g t : zone_json g = Ok t -> json_zone (zl_zone g) -> zone_ints g -> zl_data g <> [] ->
  exists s, zone_text_out d t = s ++ NL /\ reads s (says_zone g) (finite_zone g).
Proof.
  intros E (NN & NA) (I1 & I2 & I3 & I4 & I5 & I6 & I7 & I8 & I9) HD. apply emit_lines in E. subst t. destruct g as [z r ds sz ec js xm].
  cbn [zl_zone zl_real zl_data] in *. rewrite c_str_id by (apply json_nonul, NN).
  destruct ds as [|p ds]; [congruence|].
  change (map (fun pm : data_log * bool => let '(d, m) := pm in
         Buf (TAB ++ TAB ++ "{ " ++ Q ++ "type" ++ Q ++ ":" ++ fmt_i (dl_type d) ++ ", " ++
              Q ++ "size_i" ++ Q ++ ":" ++ fmt_i (sz2i (dl_size d)) ++ ", " ++
              Q ++ "file_pt" ++ Q ++ ":" ++ fmt_li (dl_pt d) ++ ", " ++
              Q ++ "min" ++ Q ++ ":" ++ fmt_le (dl_min d) ++ ", " ++
              Q ++ "max" ++ Q ++ ":" ++ fmt_le (dl_max d) ++ " }")
         :: (if m : bool then [Lit ","] else [])) (marked (p :: ds))) with (map data_line (marked (p :: ds))).
  pose proof (data_elements d p ds I9) as DE. rewrite !map_app, !out_app.
  set (D := zone_text_out d (map line_text (map data_line (marked (p :: ds))))) in *.
  set (A := zone_text_out d (map line_text (aux_json (z_aux z)))).
  set (S := zone_text_out d (map line_text (if z_strand z =? -1 then [] else _))).
  cbn [map]. rewrite !out_cons. cbn [zone_text_out map String.concat]. rewrite !append_nil_r. rewrite !append_assoc.
  cbn [line_text piece_text]. rewrite !append_nil_r. rewrite (line_plain d "{") by nn. rewrite (line_plain d "}") by nn.
  (* the last two members *)
  assert (L2 : rd MB (line_out d (TAB ++ Q ++ "Data_type_comment" ++ Q ++ " : " ++ Q ++ "1=Float, 2=Double, 3=LongInt, 4=ShortInt, 5=Byte, 6=Bit" ++ Q ++ " ,") ++
      line_out d (TAB ++ Q ++ "Data" ++ Q ++ " : [") ++ D ++ line_out d (TAB ++ "]") ++ tabs d ++ "}")
      (cons_of (eq ("Data_type_comment", JStr "1=Float, 2=Double, 3=LongInt, 4=ShortInt, 5=Byte, 6=Bit")) (cons_of (pair_of "Data" (arr_of (Forall2 says_data (p :: ds)))) (eq [])))
      (Forall finite_data (p :: ds))).
  { apply rd_str_line; [apply lit_json; reflexivity|apply lit_json; reflexivity|]. rewrite !line_plain by nn.
    apply (rd_text MB ((tabs d ++ TAB) ++ Q ++ "Data" ++ Q ++ " " ++ ":" ++ (" " ++ ("[" ++ (NL ++ (D ++ tabs d ++ TAB ++ "]")))) ++ (NL ++ tabs d) ++ "}")).
    { rewrite ?append_assoc. cbn [append]. rewrite ?append_assoc. reflexivity. }
    eapply rd_impl; [| |apply rd_mb_last; [bl|apply lit_json; reflexivity|bl|apply rd_blanks; [bl|apply rd_arr, rd_el_blanks; [bl|exact DE]]|bl]].
    - auto.
    - tauto. }
  apply (rd_aux d (z_aux z) _ _ _ NA) in L2. fold A in L2.
  apply (rd_int3_line d "Real_Max" (r_max r)) in L2; [|apply lit_json; reflexivity|exact I8].
  apply (rd_int3_line d "End" (z_end z)) in L2; [|apply lit_json; reflexivity|exact I7].
  apply (rd_int3_line d "Begin" (z_begin z)) in L2; [|apply lit_json; reflexivity|exact I6].
  apply (rd_int3_line d "Skip" (z_skip z)) in L2; [|apply lit_json; reflexivity|exact I5].
  apply (rd_int3_line d "Org_Max" (z_max z)) in L2; [|apply lit_json; reflexivity|exact I4].
  apply (rd_int_line d "Real_Dim" (r_rdim r)) in L2; [|apply lit_json; reflexivity|exact I3].
  apply (rd_int_line d "Org_Dim" (r_dim r)) in L2; [|apply lit_json; reflexivity|exact I2].
  match type of L2 with rd MB ?s ?P ?g =>
    assert (L1 : rd MB (S ++ s) (fun l => if z_strand z =? -1 then P l else cons_of (pair_of "SolutionTime" (says_number (z_time z))) P l)
      ((z_strand z <> -1 -> finite (z_time z)) /\ g)) end.
  { subst S. destruct (Z.eqb_spec (z_strand z) (-1)) as [EZ|EZ].
    - cbn [map zone_text_out String.concat append]. eapply rd_impl; [| |exact L2]; [auto|tauto].
    - cbn [map]. rewrite out_cons. cbn [zone_text_out map String.concat line_text piece_text]. rewrite !append_nil_r.
      eapply rd_impl; [| |apply rd_line; [apply lit_json; reflexivity| |apply reads_le|exact L2]]; [auto|tauto|nn]. }
  clear L2. apply (rd_int_line d "StrandId" (z_strand z)) in L1; [|apply lit_json; reflexivity|exact I1].
  apply (rd_str_line d "ZoneName" (z_name z)) in L1; [|apply lit_json; reflexivity|exact NN].
  match type of L1 with rd MB ?s ?P ?g => exists (tabs d ++ ("{" ++ (NL ++ s))) end. split.
  - rewrite ?append_assoc. cbn [append]. rewrite ?append_assoc. reflexivity.
  - eapply rd_impl; [| |apply rd_blanks; [bl|]; apply rd_obj, rd_mb_blanks; [bl|exact L1]].
    + intros j (l & -> & y1 & l1 & -> & <- & y2 & l2 & -> & <- & H).
      assert (HH : exists t l3, l2 = ((if z_strand z =? -1 then [] else [("SolutionTime", t)]) ++ l3)%list /\ (z_strand z <> -1 -> says_number (z_time z) t) /\
        (cons_of (eq ("Org_Dim", jint (r_dim r)))
              (cons_of (eq ("Real_Dim", jint (r_rdim r)))
                 (cons_of (eq ("Org_Max", jint3 (z_max z)))
                    (cons_of (eq ("Skip", jint3 (z_skip z)))
                       (cons_of (eq ("Begin", jint3 (z_begin z)))
                          (cons_of (eq ("End", jint3 (z_end z)))
                             (cons_of (eq ("Real_Max", jint3 (r_max r)))
                                (app_of (says_aux (z_aux z))
                                   (cons_of (eq ("Data_type_comment", JStr "1=Float, 2=Double, 3=LongInt, 4=ShortInt, 5=Byte, 6=Bit"))
                                      (cons_of (pair_of "Data" (arr_of (Forall2 says_data (p :: ds)))) (eq []))))))))))) l3).
      { destruct (Z.eqb_spec (z_strand z) (-1)) as [EZ|EZ].
        - exists JNull, l2. split; [reflexivity|]. split; [contradiction|exact H].
        - destruct H as (y & l3 & -> & (t & -> & Ht) & H). exists t, l3. split; [reflexivity|]. split; [intros _; exact Ht|exact H]. }
      destruct HH as (t & l3 & -> & Ht & a1 & m1 & -> & <- & a2 & m2 & -> & <- & a3 & m3 & -> & <- & a4 & m4 & -> & <- & a5 & m5 & -> & <- &
        a6 & m6 & -> & <- & a7 & m7 & -> & <- & m8 & -> & a9 & m9 & -> & <- & a10 & m10 & -> & (j & -> & dl & -> & HDL) & <-).
      exists t, dl. cbn [zl_zone zl_real zl_data]. split; [reflexivity|]. split; [exact Ht|exact HDL].
    + unfold finite_zone. cbn [zl_zone zl_data]. tauto.
Qed.

(** ** Files *)

Definition var_pieces (vs : list string) : list piece :=
  flat_map (fun vm => let '(v, m) := vm in Buf (Q ++ c_str v ++ Q) :: (if m : bool then [Lit ", "] else [])) (marked vs).
Lemma var_elements p : forall a, Forall json_text (p :: a) ->
  nonul (line_text (var_pieces (p :: a))) /\ rd EL (line_text (var_pieces (p :: a)) ++ " ]") (eq (map JStr (p :: a))) True.
Proof.
  intros a. revert p. induction a as [|q a IH]; intros p H; inversion_clear H as [|? ? H1 H2].
  - unfold var_pieces. cbn [marked flat_map app line_text piece_text]. rewrite append_nil_r, c_str_id by (apply json_nonul, H1). split; [nn|].
    apply (rd_text EL ((Q ++ p ++ Q) ++ " " ++ "]")); [rewrite ?append_assoc; reflexivity|].
    eapply rd_impl; [| |apply rd_el_last; [apply rd_some, JT_str, H1|bl]]; [|tauto]. intros l (y & l' & -> & <- & <-). reflexivity.
  - destruct (IH q H2) as [N R]. unfold var_pieces in *. rewrite marked_cons. cbn [flat_map app line_text piece_text].
    rewrite c_str_id by (apply json_nonul, H1). set (T := line_text _) in *. split; [nn|].
    apply (rd_text EL ((Q ++ p ++ Q) ++ "" ++ "," ++ (" " ++ (T ++ " ]")))); [rewrite ?append_assoc; reflexivity|].
    eapply rd_impl; [| |apply rd_el_more; [apply rd_some, JT_str, H1|bl|apply rd_el_blanks; [bl|exact R]]]; [|tauto]. intros l (y & l' & -> & <- & <-). reflexivity.
Qed.

(** The texts of the zones with commas between them. *)
Definition sep : string := TAB ++ TAB ++ ",".
Fixpoint zones_out (zd d : nat) (zt : zone_log -> list string) (zs : list zone_log) : string :=
  match zs with
  | [] => ""
  | [z] => zone_text_out zd (zt z)
  | z :: zs' => zone_text_out zd (zt z) ++ line_out d sep ++ zones_out zd d zt zs'
  end.
Lemma plain_out zd d zt A : Forall (fun s => s <> ZONE_LINE) A -> forall B zs r,
  file_text_out zd d zt zs B = Ok r -> file_text_out zd d zt zs (A ++ B) = Ok (zone_text_out d A ++ r).
Proof.
  intros H B zs r E. induction H as [|s A H1 H2 IH]; [exact E|]. cbn [app file_text_out]. destruct (String.eqb_spec s ZONE_LINE); [contradiction|].
  rewrite IH, out_cons, append_assoc. reflexivity.
Qed.
Lemma plain_out' zd d zt A B zs r : Forall (fun s => s <> ZONE_LINE) A -> file_text_out zd d zt zs B = Ok r ->
  file_text_out zd d zt zs (A ++ B) = Ok (zone_text_out d A ++ r).
Proof. intros H E. apply plain_out; assumption. Qed.
Definition zone_marks (zs : list zone_log) : list string :=
  flat_map (fun zm => ZONE_LINE :: (if (snd zm) : bool then [sep] else [])) (marked zs).
Lemma marks_out zd d zt B : Forall (fun s => s <> ZONE_LINE) B -> forall zs,
  file_text_out zd d zt zs (zone_marks zs ++ B) = Ok (zones_out zd d zt zs ++ zone_text_out d B).
Proof.
  intros HB. assert (E0 : forall zs, file_text_out zd d zt zs B = Ok (zone_text_out d B)).
  { intros zs. pose proof (plain_out zd d zt B HB [] zs "" eq_refl) as E. rewrite app_nil_r, append_nil_r in E. exact E. }
  induction zs as [|z [|z' zs] IH]; [exact (E0 [])| |].
  - cbn [zone_marks marked flat_map snd app file_text_out]. rewrite String.eqb_refl, E0. reflexivity.
  - change (zone_marks (z :: z' :: zs)) with (ZONE_LINE :: sep :: zone_marks (z' :: zs))%list. cbn [app file_text_out].
    rewrite String.eqb_refl. change (String.eqb sep ZONE_LINE) with false. cbv iota. rewrite IH. cbn [rbind].
    change (zones_out zd d zt (z :: z' :: zs)) with (zone_text_out zd (zt z) ++ line_out d sep ++ zones_out zd d zt (z' :: zs)).
    rewrite !append_assoc. reflexivity.
Qed.
Lemma map_marks zs : map line_text (flat_map (fun zm => [Lit ZONE_LINE] :: (if (snd zm) : bool then [ [Lit (TAB ++ TAB ++ ",")] ] else []))
         (marked (A := zone_log) zs)) = zone_marks zs.
Proof.
  unfold zone_marks. induction (marked zs) as [|[z m] l IH]; [reflexivity|]. cbn [flat_map snd]. rewrite map_app, IH. destruct m; reflexivity.
Qed.

Definition json_zone_ok (z : zone_log) : Prop :=
  zone_json z = Ok (zl_json z) /\ json_zone (zl_zone z) /\ zone_ints z /\ zl_data z <> [].
Lemma zone_elements d p : forall a, Forall json_zone_ok (p :: a) ->
  rd EL (zones_out (d + 2) d zl_json (p :: a) ++ tabs d ++ TAB ++ "]") (Forall2 says_zone (p :: a)) (Forall finite_zone (p :: a)).
Proof.
  intros a. revert p. induction a as [|q a IH]; intros p H;
    pose proof (Forall_inv H) as (Z1 & Z2 & Z3 & Z4); apply Forall_inv_tail in H; rename H into H2; destruct (zone_value (d + 2) p _ Z1 Z2 Z3 Z4) as (s & Es & Rs).
  - cbn [zones_out]. rewrite Es. apply (rd_text EL (s ++ (NL ++ tabs d ++ TAB) ++ "]")).
    { rewrite ?append_assoc. cbn [append]. rewrite ?append_assoc. reflexivity. }
    eapply rd_impl; [| |apply rd_el_last; [exact Rs|bl]].
    + intros l (y & l' & -> & Py & <-). constructor; [exact Py|constructor].
    + split; [intros [F _]; constructor; [exact F|constructor]|]. intros F. inversion_clear F. auto.
  - change (zones_out (d + 2) d zl_json (p :: q :: a)) with (zone_text_out (d + 2) (zl_json p) ++ line_out d sep ++ zones_out (d + 2) d zl_json (q :: a)).
    rewrite Es, line_plain by (unfold sep; nn). specialize (IH q H2). set (T := zones_out _ _ _ _) in *.
    apply (rd_text EL (s ++ (NL ++ tabs d ++ TAB ++ TAB) ++ "," ++ (NL ++ (T ++ tabs d ++ TAB ++ "]")))).
    { unfold sep. rewrite ?append_assoc. cbn [append]. rewrite ?append_assoc. reflexivity. }
    eapply rd_impl; [| |apply rd_el_more; [exact Rs|bl|apply rd_el_blanks; [bl|exact IH]]].
    + intros l (y & l' & -> & Py & Pl). constructor; assumption.
    + split; [intros [F F']; constructor; assumption|]. intros F. inversion_clear F. auto.
Qed.

Lemma file_value d g : file_json g = Ok (fl_json g) -> Forall json_zone_ok (fl_zones g) -> json_plain (fl_file g) -> json_text (fl_begin g) ->
  in_int (f_type (fl_file g)) -> f_vars (fl_file g) <> [] -> fl_zones g <> [] ->
  exists s, write_json g d = Ok (s ++ NL) /\ reads s (says_file g) (finite_log g).
Proof.
  intros E HZ (S1 & S2 & S3 & S4 & S5 & _) HB IT HV HN. unfold write_json. apply emit_lines in E. rewrite E. clear E.
  assert (S0 : json_text (f_name (fl_file g) ++ ".plt")) by (apply chars_app; split; [exact S1|apply lit_json; reflexivity]).
  rewrite !map_app, map_marks. rewrite !c_str_id by (apply json_nonul; assumption).
  match goal with |- context [file_text_out _ _ _ _ (?A ++ ?B ++ ?C ++ ?M ++ ?D)] =>
    replace (A ++ B ++ C ++ M ++ D)%list with ((A ++ B ++ C) ++ M ++ D)%list by (rewrite <- !app_assoc; reflexivity);
    rewrite (plain_out' (d + 2) d zl_json (A ++ B ++ C) (M ++ D) (fl_zones g) (zones_out (d + 2) d zl_json (fl_zones g) ++ zone_text_out d D)) end.
  3: { apply marks_out. cbn [map]. repeat (apply Forall_cons; [discriminate|]). apply Forall_nil. }
  2: { apply Forall_app. split; [cbn [map]; repeat (apply Forall_cons; [discriminate|]); apply Forall_nil|].
       apply Forall_app. split; [|cbn [map]; repeat (apply Forall_cons; [discriminate|]); apply Forall_nil].
       apply Forall_forall. intros s Hs. apply in_map_iff in Hs. destruct Hs as (p & <- & Hp). unfold aux_json in Hp.
       destruct (f_aux (fl_file g)) as [|q a]; [destruct Hp|]. cbn [app] in Hp. destruct Hp as [<-|Hp]; [discriminate|].
       apply in_app_or in Hp. destruct Hp as [Hp|[<-|[]]]; [|discriminate]. apply in_map_iff in Hp. destruct Hp as ([u m] & <- & _). discriminate. }
  destruct (fl_zones g) as [|z zs] eqn:EZ; [congruence|]. destruct (f_vars (fl_file g)) as [|v vs] eqn:EV; [congruence|].
  pose proof (zone_elements d z zs HZ) as ZE. destruct (var_elements v vs S4) as [VN VE]. set (Z := zones_out _ _ _ _) in *.
  change (flat_map (fun vm : string * bool => let '(v, m) := vm in Buf (Q ++ c_str v ++ Q) :: (if m : bool then [Lit ", "] else [])) (marked (v :: vs)))
    with (var_pieces (v :: vs)).
  set (V := var_pieces (v :: vs)) in *. rewrite !out_app. set (A := zone_text_out d (map line_text (aux_json _))).
  cbn [map]. rewrite !out_cons. cbn [zone_text_out map String.concat]. rewrite !append_nil_r. rewrite !append_assoc.
  cbn [line_text piece_text]. rewrite line_text_app. cbn [line_text piece_text]. rewrite !append_nil_r.
  set (VT := line_text V) in *. rewrite (line_plain d "{") by nn. rewrite (line_plain d "}") by nn.
  assert (L : rd MB (line_out d (TAB ++ Q ++ "Zones" ++ Q ++ " : [") ++ Z ++ line_out d (TAB ++ "]") ++ tabs d ++ "}")
      (cons_of (pair_of "Zones" (arr_of (Forall2 says_zone (z :: zs)))) (eq [])) (Forall finite_zone (z :: zs))).
  { rewrite !line_plain by nn.
    apply (rd_text MB ((tabs d ++ TAB) ++ Q ++ "Zones" ++ Q ++ " " ++ ":" ++ (" " ++ ("[" ++ (NL ++ (Z ++ tabs d ++ TAB ++ "]")))) ++ (NL ++ tabs d) ++ "}")).
    { rewrite ?append_assoc. cbn [append]. rewrite ?append_assoc. reflexivity. }
    eapply rd_impl; [| |apply rd_mb_last; [bl|apply lit_json; reflexivity|bl|apply rd_blanks; [bl|apply rd_arr, rd_el_blanks; [bl|exact ZE]]|bl]].
    - auto.
    - tauto. }
  apply (rd_aux d (f_aux (fl_file g)) _ _ _ S5) in L. fold A in L.
  match type of L with rd MB ?s ?P ?g =>
    assert (L1 : rd MB (line_out d ((TAB ++ Q ++ "Variables" ++ Q ++ " : [ ") ++ VT ++ " ] ,") ++ s) (cons_of (eq ("Variables", JArr (map JStr (v :: vs)))) P) g) end.
  { match goal with |- rd MB (_ ++ ?s) _ _ =>
      apply (rd_text MB (line_out d (TAB ++ Q ++ "Variables" ++ Q ++ " : " ++ ("[" ++ (" " ++ (VT ++ " ]"))) ++ " ,") ++ s)) end.
    { f_equal. f_equal. rewrite ?append_assoc. cbn [append]. rewrite ?append_assoc. reflexivity. }
    eapply rd_impl; [| |apply rd_line; [apply lit_json; reflexivity| |apply rd_arr, rd_el_blanks; [bl|exact VE]|exact L]].
    - intros l (y & l' & -> & (j & -> & m & -> & <-) & Hl). eexists. exists l'. split; [reflexivity|]. auto.
    - tauto.
    - nn. }
  clear L. rename L1 into L.
  apply (rd_int_line d "FileType" (f_type (fl_file g))) in L; [|apply lit_json; reflexivity|exact IT].
  apply (rd_str_line d "FileType_comment" "0 = FULL, 1 = GRID, 2 = SOLUTION") in L; [|apply lit_json; reflexivity|apply lit_json; reflexivity].
  apply (rd_str_line d "Title" (f_title (fl_file g))) in L; [|apply lit_json; reflexivity|exact S3].
  apply (rd_line d "UsingTime" (fmt_lf 5 (fl_using g)) _ _ _ _ _ ltac:(apply lit_json; reflexivity) ltac:(nn) (reads_lf (fl_using g))) in L.
  apply (rd_str_line d "Time" (fl_begin g)) in L; [|apply lit_json; reflexivity|exact HB].
  apply (rd_str_line d "FilePath" (f_path (fl_file g))) in L; [|apply lit_json; reflexivity|exact S2].
  apply (rd_str_line d "FileName" (f_name (fl_file g) ++ ".plt")) in L; [|apply lit_json; reflexivity|exact S0].
  match type of L with rd MB ?s ?P ?g => exists (tabs d ++ ("{" ++ (NL ++ s))) end. split.
  - f_equal. rewrite ?append_assoc. cbn [append]. rewrite ?append_assoc. reflexivity.
  - eapply rd_impl; [| |apply rd_blanks; [bl|]; apply rd_obj, rd_mb_blanks; [bl|exact L]].
    + intros j (l & -> & a1 & m1 & -> & <- & a2 & m2 & -> & <- & a3 & m3 & -> & <- & a4 & m4 & -> & (t & -> & Ht) & a5 & m5 & -> & <- &
        a6 & m6 & -> & <- & a7 & m7 & -> & <- & a8 & m8 & -> & <- & m9 & -> & a10 & m10 & -> & (jz & -> & dl & -> & HDL) & <-).
      unfold says_file. rewrite EZ, EV. exists t, dl. split; [reflexivity|]. split; [exact Ht|exact HDL].
    + unfold finite_log. rewrite EZ. tauto.
Qed.

(** ** Written logs *)

Lemma gen_zone_json z z' : gen_zone z = Ok z' -> zl_json z = [] ->
  zone_json z' = Ok (zl_json z') /\ zl_zone z' = zl_zone z /\ zl_real z' = zl_real z /\ zl_data z' = zl_data z.
Proof.
  unfold gen_zone. intros E Hx. destruct (zone_json z) as [j|x|] eqn:Ej; try discriminate. cbn [rbind] in E.
  destruct (zone_xml z) as [t|x|] eqn:Et; try discriminate. cbn [rbind] in E. injection E as <-. rewrite Hx.
  destruct z as [z r ds sz ec js xm]. split; [exact Ej|]. auto.
Qed.
Lemma gen_zones_json zs : forall zs', map_res gen_zone zs = Ok zs' -> Forall (fun z => zl_json z = []) zs -> Forall (fun z => zone_json z = Ok (zl_json z)) zs'.
Proof.
  induction zs as [|z zs IH]; intros zs' E H; cbn [map_res] in E; [injection E as <-; constructor|].
  destruct (gen_zone z) as [z'|x|] eqn:Ez; try discriminate. cbn [rbind] in E.
  destruct (map_res gen_zone zs) as [r|x|] eqn:Er; try discriminate. cbn [rbind] in E. injection E as <-. inversion_clear H as [|? ? H1 H2].
  constructor; [apply (gen_zone_json _ _ Ez H1)|apply IH; [reflexivity|exact H2]].
Qed.
Lemma file_json_same g g' : fl_file g = fl_file g' -> fl_begin g = fl_begin g' -> fl_using g = fl_using g' ->
  length (fl_zones g) = length (fl_zones g') -> file_json g = file_json g'.
Proof.
  intros E1 E2 E3 E4. unfold file_json. rewrite E1, E2, E3. cbv zeta.
  assert (EM : flat_map (fun zm => [Lit ZONE_LINE] :: (if (snd zm) : bool then [ [Lit (TAB ++ TAB ++ ",")] ] else [])) (marked (fl_zones g)) =
    flat_map (fun zm => [Lit ZONE_LINE] :: (if (snd zm) : bool then [ [Lit (TAB ++ TAB ++ ",")] ] else [])) (marked (fl_zones g'))); [|rewrite EM; reflexivity].
  revert E4. generalize (fl_zones g) (fl_zones g'). induction l as [|z [|y l] IH]; intros [|z' [|y' l']] E; try discriminate; [reflexivity|reflexivity|].
  rewrite !marked_cons. cbn [flat_map snd]. rewrite (IH (y' :: l')); [reflexivity|]. injection E as E. cbn [length]. f_equal. exact E.
Qed.
Lemma gen_texts_json l g : gen_texts l = Ok g -> fl_json l = [] -> Forall (fun z => zl_json z = []) (fl_zones l) ->
  file_json g = Ok (fl_json g) /\ Forall (fun z => zone_json z = Ok (zl_json z)) (fl_zones g).
Proof.
  unfold gen_texts. intros E Hx Hz. destruct (map_res gen_zone (fl_zones l)) as [zs|x|] eqn:Ez; try discriminate. cbn [rbind] in E.
  destruct (file_json l) as [j|x|] eqn:Ej; try discriminate. cbn [rbind] in E.
  destruct (file_xml l) as [t|x|] eqn:Et; try discriminate. cbn [rbind] in E. injection E as <-. rewrite Hx.
  assert (G : length (fl_zones l) = length zs).
  { clear - Ez. revert zs Ez. induction (fl_zones l) as [|z a IH]; intros zs E; cbn [map_res] in E; [injection E as <-; reflexivity|].
    destruct (gen_zone z); try discriminate. cbn [rbind] in E. destruct (map_res gen_zone a); try discriminate. cbn [rbind] in E. injection E as <-.
    cbn [length]. f_equal. apply IH. reflexivity. }
  cbn [fl_set_text fl_set_zones fl_json fl_zones app]. split; [|eapply gen_zones_json; eassumption].
  rewrite <- Ej. apply file_json_same; try reflexivity. cbn [fl_set_text fl_set_zones fl_zones]. symmetry. exact G.
Qed.

Lemma written_json e f s g u depth :
  file_wf f -> plt_size f < 2 ^ 63 -> write_plt e f = Ret (s, g) u -> json_plain f -> json_text (e_begin e) ->
  exists t, write_json g depth = Ok t /\ match parse_json t with Some j => finite_log g /\ says_file g j | None => ~ finite_log g end.
Proof.
  intros Hw Hs E Hx Hb. pose proof (written_ints e f s g u Hw Hs E) as HI.
  destruct (plt_log e f s g u Hw Hs E) as (b & p & _ & (_ & _ & _ & _ & Hsh) & _ & Hlz & _).
  pose proof (write_spec e f Hw Hs) as H. rewrite E in H.
  destruct H as (Hr & _ & Hsh' & _ & pvs & _ & _ & _ & Hzz & _ & Hf & Hbeg & _ & Hus & _ & _ & _ & _ & _ & gs & t & Eg & Hbare).
  assert (HX : Forall (fun z => zl_json z = []) gs) by (clear - Hbare; induction Hbare as [|z g' zs gs (_ & _ & H & _) H2 IH]; constructor; assumption).
  destruct (gen_texts_json _ _ Eg eq_refl HX) as (ET & EZ).
  destruct (not_refused_good f Hw Hr) as (HV & HZ & _).
  destruct (file_value depth g ET) as (x & Ex & o & Jx & Ho).
  - apply Forall_forall. intros zl Hzl. rewrite Forall_forall in EZ, HI. split; [apply EZ, Hzl|]. split; [|split; [apply HI, Hzl|]].
    + destruct Hx as (_ & _ & _ & _ & _ & Hx). rewrite Forall_forall in Hx. apply Hx. rewrite <- Hzz. apply in_map, Hzl.
    + apply In_nth_error in Hzl. destruct Hzl as [i Hi].
      destruct (Forall2_nth_r _ _ _ _ _ Hlz Hi) as (pz & Hpz & _ & Hdat).
      destruct (Forall2_nth_r _ _ _ _ _ Hsh Hpz) as (z & Hz & _ & Hvars). apply Forall2_len in Hdat, Hvars.
      intros C. rewrite C in Hdat. apply Hr. right. right. exists z. split; [eapply nth_error_In; exact Hz|]. right. left.
      apply length_zero_iff_nil. cbn [length] in Hdat. congruence.
  - rewrite Hf. exact Hx.
  - rewrite Hbeg. exact Hb.
  - rewrite Hf. apply Hw.
  - rewrite Hf. exact HV.
  - intros C. rewrite C in Hzz. cbn [map] in Hzz. congruence.
  - exists (x ++ NL). split; [exact Ex|]. rewrite (JT_parse x o NL Jx) by bl. exact Ho.
Qed.

(** ** Finite data *)

Lemma given_finite e f s g u :
  file_wf f -> plt_size f < 2 ^ 63 -> write_plt e f = Ret (s, g) u -> finite_file f -> finite (e_using e) -> finite_log g.
Proof.
  intros Hw Hs E HF HU.
  destruct (plt_log e f s g u Hw Hs E) as (b & p & _ & (_ & _ & _ & _ & Hsh) & _ & Hlz & Hzz & _ & _ & _ & _ & _ & _ & Hus & _).
  destruct (written_log e f s g u Hw Hs E) as (b' & _ & _ & _ & Hall).
  split; [rewrite Hus; exact HU|]. apply Forall_forall. intros zl Hzl. apply In_nth_error in Hzl. destruct Hzl as [i Hi].
  destruct (Forall2_nth_r _ _ _ _ _ Hlz Hi) as (pz & Hpz & _ & Hdat).
  destruct (Forall2_nth_r _ _ _ _ _ Hsh Hpz) as (z & Hz & _ & Hvars).
  assert (EZ : zl_zone zl = z). { apply (map_nth_error zl_zone) in Hi. rewrite Hzz in Hi. congruence. }
  unfold finite_file in HF. rewrite Forall_forall in HF. destruct (HF z (nth_error_In _ _ Hz)) as (HT & HV). rewrite Forall_forall in HV.
  split; [rewrite EZ; exact HT|]. apply Forall_forall. intros dl Hdl. apply In_nth_error in Hdl. destruct Hdl as [k Hk].
  destruct (Forall2_nth_r _ _ _ _ _ Hdat Hk) as (pv & Hpv & _ & _ & Emin & Emax & _).
  destruct (Forall2_nth_r _ _ _ _ _ Hvars Hpv) as (d & Hd & mem & Em & Et & Ed & Hext).
  destruct (Hall i z k d mem Hz Hd Em) as (Hfit & Hlen & _). specialize (HV d (nth_error_In _ _ Hd)).
  assert (Hwp : 0 < width (d_type d)).
  { destruct Hw as (_ & _ & _ & Hw). rewrite Forall_forall in Hw. destruct (Hw z (nth_error_In _ _ Hz)) as (_ & _ & _ & _ & _ & Hd').
    rewrite Forall_forall in Hd'. destruct (Hd' d (nth_error_In _ _ Hd)) as (Hm & _). destruct (made_width d Hm mem Em) as (HT5 & _).
    assert (d_type d = 1 \/ d_type d = 2 \/ d_type d = 3 \/ d_type d = 4 \/ d_type d = 5) as X by lia.
    destruct X as [->|[->|[->|[->| ->]]]]; reflexivity. }
  assert (Hblk : Z.of_nat (length (pv_data pv)) = product (samples_of z) * width (d_type d)).
  { rewrite Ed, (block_length z _ mem Hfit Hwp Hlen). destruct Hfit as ((D0 & D1 & D2) & _).
    destruct (dir_real _ _ _ _ D0) as (P0 & _ & _ & _ & S0). destruct (dir_real _ _ _ _ D1) as (P1 & _ & _ & _ & S1).
    destruct (dir_real _ _ _ _ D2) as (P2 & _ & _ & _ & S2). fold (R0 z) (R1 z) (R2 z) in *.
    unfold samples_of, sampled0, sampled1, sampled2. rewrite S0, S1, S2, !length_steps, !Z2Nat.id by lia. cbn [product fold_right]. ring. }
  destruct Hext as (_ & _ & (i1 & H1 & E1) & (i2 & H2 & E2) & _).
  { intros j Hj. rewrite Hblk, Z.div_mul in Hj by lia. destruct (HV mem j Em Hj) as (v & Ev). rewrite Ed, Ev. discriminate. }
  destruct (HV mem i1 Em H1) as (v1 & F1). destruct (HV mem i2 Em H2) as (v2 & F2).
  split; [exists v1; rewrite Emin, E1, Ed|exists v2; rewrite Emax, E2, Ed]; assumption.
Qed.
