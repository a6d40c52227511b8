(** The XML texts of logs, and the nodes the parser makes of them. *)

From Coq Require Import ZArith Ascii String List Bool Lia.
From Verif Require Import Base M_Bytes M_TecZone M_TecFile Spec_Tec Spec_Plt Spec_Xml L_Base L_TecZone L_TecMin L_Text L_Plt L_TecWrite L_TecFile L_TecText L_TecProp
  L_Scan M_Scan M_Xml L_Xml L_XmlSeq M_ReadXml.
Import ListNotations.
Open Scope string_scope.
Open Scope Z_scope.

Ltac capp := unfold nonul; rewrite ?chars_app; repeat match goal with |- _ /\ _ => split end.

(** ** Numbers *)

Definition numc (n : Z) : Prop := 43 <= n <= 57 \/ 97 <= n <= 122.
Definition num_text (s : string) : Prop := s <> "" /\ chars numc s.
Lemma num_value s : num_text s -> plain_value s.
Proof. intros [_ H]. eapply chars_impl; [|exact H]. unfold numc, plain. lia. Qed.
Lemma num_plain s : num_text s -> plain_text s.
Proof.
  intros H. split; [apply value_plain, num_value, H|]. destruct H as [H1 H2]. destruct s as [|c s]; [congruence|].
  intros C. apply chars_cons in C, H2. unfold space, numc in *. lia.
Qed.
Lemma num_chars s : num_text s -> chars plain s.
Proof. intros H. apply num_plain, H. Qed.

Lemma digit_numc n : numc (b2z (digit (n mod 10))).
Proof. pose proof (Z.mod_pos_bound n 10 ltac:(lia)). rewrite b2z_digit by lia. unfold numc. lia. Qed.
Lemma show_acc_num f : forall n acc, chars numc acc -> chars numc (show_acc f n acc).
Proof.
  induction f as [|f IH]; intros n acc H; [exact H|]. cbn [show_acc]. pose proof (digit_numc n).
  destruct (n <? 10); [|apply IH]; apply chars_cons; auto.
Qed.
Lemma show_num f n : chars numc (show f n).
Proof. apply show_acc_num, chars_nil. Qed.
Lemma show_acc_ne f : forall n acc, acc <> "" -> show_acc f n acc <> "".
Proof. induction f as [|f IH]; intros n acc H; [exact H|]. cbn [show_acc]. destruct (n <? 10); [discriminate|]. apply IH. discriminate. Qed.
Lemma show_ne f n : show (S f) n <> "".
Proof. unfold show. cbn [show_acc]. destruct (n <? 10); [discriminate|]. apply show_acc_ne. discriminate. Qed.
Lemma show_pad_num k : forall n, chars numc (show_pad k n).
Proof.
  induction k as [|k IH]; intros n; [apply chars_nil|]. cbn [show_pad]. apply chars_app. split; [apply IH|].
  apply chars_cons. split; [apply digit_numc|apply chars_nil].
Qed.
Lemma lit_chars (P : Z -> Prop) (b : Z -> bool) s : (forall n, b n = true -> P n) ->
  forallb (fun c => b (b2z c)) (list_ascii_of_string s) = true -> chars P s.
Proof. intros H1 H2 c Hc. rewrite forallb_forall in H2. apply H1, H2, Hc. Qed.
Lemma lit_num s : forallb (fun c => let n := b2z c in ((43 <=? n) && (n <=? 57)) || ((97 <=? n) && (n <=? 122))) (list_ascii_of_string s) = true -> chars numc s.
Proof.
  apply (lit_chars numc (fun n => ((43 <=? n) && (n <=? 57)) || ((97 <=? n) && (n <=? 122)))).
  intros n. rewrite orb_true_iff, !andb_true_iff, !Z.leb_le. unfold numc. tauto.
Qed.
Lemma app_ne a b : b <> "" -> a ++ b <> "".
Proof. destruct a; [auto|discriminate]. Qed.

Lemma num_i z : num_text (fmt_i z).
Proof.
  unfold fmt_i. destruct (z <? 0); split.
  - discriminate.
  - apply chars_app. split; [apply lit_num; reflexivity|apply show_num].
  - apply show_ne.
  - apply show_num.
Qed.
Lemma num_li z : num_text (fmt_li z).
Proof.
  unfold fmt_li. destruct (z <? 0); split.
  - discriminate.
  - apply chars_app. split; [apply lit_num; reflexivity|apply show_num].
  - apply show_ne.
  - apply show_num.
Qed.
Lemma num_sign b f : (forall v, num_text (f v)) -> num_text (with_sign b f).
Proof.
  intros H. unfold with_sign. assert (S : chars numc (if b / 2 ^ 63 mod 2 =? 0 then "" else "-")).
  { destruct (_ =? 0); [apply chars_nil|apply lit_num; reflexivity]. }
  destruct (num64 b) as [| |v|]; (split; [apply app_ne; try discriminate|apply chars_app; split; [exact S|]; try (apply lit_num; reflexivity)]).
  - apply H.
  - apply H.
Qed.
Lemma num_le b : num_text (fmt_le b).
Proof.
  apply num_sign. intros v. unfold fmt_sci. destruct (if v =? 0 then _ else _) as [m e]. cbv zeta. split; [discriminate|].
  apply chars_cons. split; [apply digit_numc|]. capp; try (apply lit_num; reflexivity).
  - apply show_pad_num.
  - destruct (e <? 0); apply lit_num; reflexivity.
  - destruct (Z.abs e <? 100); apply show_pad_num.
Qed.
Lemma num_lf p b : num_text (fmt_lf p b).
Proof.
  apply num_sign. intros v. unfold fmt_fixed. cbv zeta. split; [apply app_ne; discriminate|].
  capp; [apply show_num|apply lit_num; reflexivity|apply show_pad_num].
Qed.

(** ** Lines *)

Lemma out_cons d s l : zone_text_out d (s :: l) = line_out d s ++ zone_text_out d l.
Proof. unfold zone_text_out. cbn [map]. apply concat_empty_cons. Qed.
Lemma out_app d a b : zone_text_out d (a ++ b) = zone_text_out d a ++ zone_text_out d b.
Proof.
  induction a as [|s a IH]; [reflexivity|]. cbn [app]. rewrite !out_cons, IH, append_assoc. reflexivity.
Qed.
Lemma tabs_space d : chars space (tabs d).
Proof. induction d as [|d IH]; [apply chars_nil|]. cbn [tabs]. apply chars_app. split; [apply lit_space; reflexivity|exact IH]. Qed.
Lemma line_plain d s : nonul s -> line_out d s = tabs d ++ s ++ NL.
Proof. intros H. rewrite line_out_eq, c_str_id by exact H. reflexivity. Qed.
Lemma NL_space : chars space NL.
Proof. apply lit_space. reflexivity. Qed.

Lemma Seq_front w s ns : chars space w -> Seq s ns -> Seq (w ++ s) ns.
Proof. intros Hw Hs. change ns with ([] ++ ns)%list. apply Seq_app; [apply Seq_ws, Hw|exact Hs]. Qed.
Lemma Seq_back w s ns : chars space w -> Seq s ns -> Seq (s ++ w) ns.
Proof. intros Hw Hs. rewrite <- (app_nil_r ns). apply Seq_app; [exact Hs|apply Seq_ws, Hw]. Qed.
Lemma Seq_line d s ns : Seq s ns -> Seq (line_out d s) ns.
Proof.
  intros H. rewrite line_plain by apply H. apply Seq_front; [apply tabs_space|]. apply Seq_back; [apply NL_space|exact H].
Qed.
Lemma Seq_out_nil d : Seq (zone_text_out d []) [].
Proof. apply Seq_nil. Qed.
Lemma Seq_out_cons d s l n1 n2 : Seq s n1 -> Seq (zone_text_out d l) n2 -> Seq (zone_text_out d (s :: l)) (n1 ++ n2).
Proof. intros H1 H2. rewrite out_cons. apply Seq_app; [apply Seq_line, H1|exact H2]. Qed.
Lemma Seq_out_app d a b n1 n2 : Seq (zone_text_out d a) n1 -> Seq (zone_text_out d b) n2 -> Seq (zone_text_out d (a ++ b)) (n1 ++ n2).
Proof. intros H1 H2. rewrite out_app. apply Seq_app; assumption. Qed.
Lemma Seq_out_map {A} d (f : A -> string) (g : A -> node) l : (forall a, In a l -> Seq (f a) [g a]) ->
  Seq (zone_text_out d (map f l)) (map g l).
Proof.
  induction l as [|a l IH]; intros H; [apply Seq_out_nil|]. cbn [map]. apply (Seq_out_cons d _ _ [g a] (map g l)); [apply H; left; reflexivity|].
  apply IH. intros b Hb. apply H. right. exact Hb.
Qed.

(** An element whose tags are lines of their own. *)
Lemma block_text d w n l m : chars space w -> xml_name n -> good_attrs l ->
  line_out d (w ++ "<" ++ n ++ attrs_text l ++ ">") ++ m ++ line_out d (w ++ "</" ++ n ++ ">")
  = (tabs d ++ w) ++ elem_text n l (NL ++ m ++ tabs d ++ w) ++ NL.
Proof.
  intros Hw Hn Hl.
  assert (N1 : nonul (w ++ "<" ++ n ++ attrs_text l ++ ">")).
  { capp; try (apply lit_nonul; reflexivity); [apply space_nonul, Hw|apply name_nonul, Hn|apply attrs_nonul, Hl]. }
  assert (N2 : nonul (w ++ "</" ++ n ++ ">")).
  { capp; try (apply lit_nonul; reflexivity); [apply space_nonul, Hw|apply name_nonul, Hn]. }
  rewrite !line_plain by assumption. unfold elem_text. rewrite ?append_assoc. cbn [append]. reflexivity.
Qed.
Lemma block_body d w m ns : chars space w -> Seq m ns -> Seq (NL ++ m ++ tabs d ++ w) ns.
Proof.
  intros Hw H. apply Seq_front; [apply NL_space|]. apply Seq_back; [|exact H]. apply chars_app. split; [apply tabs_space|exact Hw].
Qed.
Lemma Seq_wrap d w n l m ns : chars space w -> xml_name n -> good_attrs l -> Seq m ns ->
  Seq (line_out d (w ++ "<" ++ n ++ attrs_text l ++ ">") ++ m ++ line_out d (w ++ "</" ++ n ++ ">")) [NElem n l ns].
Proof.
  intros Hw Hn Hl H. rewrite block_text by assumption. apply Seq_front; [apply chars_app; split; [apply tabs_space|exact Hw]|].
  apply Seq_back; [apply NL_space|]. apply Seq_elem; [assumption|assumption|]. apply Seq_Body, block_body; assumption.
Qed.
Lemma out_block d a ls b : zone_text_out d (a :: ls ++ [b]) = line_out d a ++ zone_text_out d ls ++ line_out d b.
Proof. rewrite out_cons, out_app, out_cons. cbn [zone_text_out map String.concat]. rewrite append_nil_r. reflexivity. Qed.
Lemma Seq_block d w n l ls ns : chars space w -> xml_name n -> good_attrs l -> Seq (zone_text_out d ls) ns ->
  Seq (zone_text_out d ((w ++ "<" ++ n ++ attrs_text l ++ ">") :: ls ++ [w ++ "</" ++ n ++ ">"])) [NElem n l ns].
Proof. intros Hw Hn Hl H. rewrite out_block. apply Seq_wrap; assumption. Qed.

(** ** Nodes *)

Lemma lit_name s : match s with String c r => name_start c && forallb name_char (list_ascii_of_string r) | "" => false end = true -> xml_name s.
Proof.
  destruct s as [|c r]; [discriminate|]. intros H. apply andb_true_iff in H. destruct H as [H1 H2].
  exists c, r. split; [reflexivity|]. split; [apply name_start_1, H1|]. intros d Hd. rewrite forallb_forall in H2. apply name_char_2, H2, Hd.
Qed.
Lemma no_attrs : good_attrs [].
Proof. split; constructor. Qed.

Definition blank (s : string) : bool := String.eqb (skip_ws s) "".
Lemma blank_iff s : blank s = true <-> chars space s.
Proof.
  unfold blank. rewrite String.eqb_eq. split.
  - induction s as [|c s IH]; intros H; [apply chars_nil|]. cbn [skip_ws] in H. destruct (is_ws c) eqn:E; [|discriminate].
    apply chars_cons. split; [apply is_ws_space, E|apply IH, H].
  - apply skip_ws_blank.
Qed.
Definition txt (n s : string) : node := NElem n [] (if blank s then [] else [NText false s]).
Lemma Seq_txt n s : xml_name n -> chars plain s -> Seq (elem_text n [] s) [txt n s].
Proof.
  intros Hn Hs. apply Seq_elem; [assumption|apply no_attrs|]. destruct (blank s) eqn:B.
  - apply Seq_Body, Seq_ws, blank_iff, B.
  - apply Body_text. split; [exact Hs|]. intros C. apply blank_iff in C. congruence.
Qed.

Definition node3 (name : string) (v : v3) : node :=
  NElem name [] [txt "I" (fmt_i (x0 v)); txt "J" (fmt_i (x1 v)); txt "K" (fmt_i (x2 v))].
Lemma line3 name v : xml_name name -> Seq (line_text (xml3 name v)) [node3 name v].
Proof.
  intros Hn. unfold xml3. cbn [line_text piece_text]. rewrite append_nil_r.
  replace (TAB ++ "<" ++ name ++ "> <I>" ++ fmt_i (x0 v) ++ "</I> <J>" ++ fmt_i (x1 v) ++ "</J> <K>" ++ fmt_i (x2 v) ++ "</K> </" ++ name ++ ">")
    with (TAB ++ elem_text name [] (" " ++ elem_text "I" [] (fmt_i (x0 v)) ++ " " ++ elem_text "J" [] (fmt_i (x1 v)) ++ " " ++ elem_text "K" [] (fmt_i (x2 v)) ++ " ")).
  - apply Seq_front; [apply lit_space; reflexivity|]. apply Seq_elem; [assumption|apply no_attrs|]. apply Seq_Body.
    apply Seq_front; [apply lit_space; reflexivity|].
    apply (Seq_app _ [txt "I" (fmt_i (x0 v))] _ [txt "J" (fmt_i (x1 v)); txt "K" (fmt_i (x2 v))]); [apply Seq_txt; [apply lit_name; reflexivity|apply num_chars, num_i]|].
    apply Seq_front; [apply lit_space; reflexivity|].
    apply (Seq_app _ [txt "J" (fmt_i (x1 v))] _ [txt "K" (fmt_i (x2 v))]); [apply Seq_txt; [apply lit_name; reflexivity|apply num_chars, num_i]|].
    apply Seq_front; [apply lit_space; reflexivity|]. apply Seq_back; [apply lit_space; reflexivity|].
    apply Seq_txt; [apply lit_name; reflexivity|apply num_chars, num_i].
  - unfold elem_text. cbn [attrs_text append]. rewrite ?append_assoc. cbn [append]. rewrite ?append_assoc. cbn [append]. rewrite ?append_assoc. reflexivity.
Qed.

Definition aux_nodes (a : aux) : list node :=
  match a with [] => [] | _ => [NElem "Auxiliary" [] (map (fun p => txt (fst p) (snd p)) a)] end.
Lemma aux_lines d a : xml_aux a -> Seq (zone_text_out d (map line_text (aux_xml a))) (aux_nodes a).
Proof.
  intros [_ H]. destruct a as [|p a]; [apply Seq_out_nil|]. unfold aux_xml, aux_nodes. set (b := p :: a) in *. clearbody b.
  cbn [app map]. rewrite map_app. cbn [map]. rewrite map_map.
  apply (Seq_block d TAB "Auxiliary" []); [apply lit_space; reflexivity|apply lit_name; reflexivity|apply no_attrs|].
  apply Seq_out_map. intros q Hq. rewrite Forall_forall in H. destruct (H q Hq) as [Hn Ht]. cbn [line_text piece_text].
  rewrite append_nil_r, (c_str_id (fst q)), (c_str_id (snd q)) by (apply name_nonul, Hn || apply plain_nonul, Ht).
  change (TAB ++ TAB ++ "<" ++ fst q ++ ">" ++ snd q ++ "</" ++ fst q ++ ">") with ((TAB ++ TAB) ++ elem_text (fst q) [] (snd q)).
  apply Seq_front; [apply lit_space; reflexivity|]. apply Seq_txt; assumption.
Qed.

Definition data_attrs (d : data_log) : list (string * string) :=
  [("type", fmt_i (dl_type d)); ("size_i", fmt_i (sz2i (dl_size d))); ("file_pt", fmt_li (dl_pt d));
   ("min", fmt_le (dl_min d)); ("max", fmt_le (dl_max d))].
Definition data_node (kd : nat * data_log) : node :=
  NElem ("Data_" ++ fmt_i (sz2i (Z.of_nat (fst kd)))) (data_attrs (snd kd)) [].

Ltac distinct := repeat (apply NoDup_cons; [cbn [In]; intuition discriminate|]); apply NoDup_nil.

Lemma num_name2 s : chars (fun n => 48 <= n <= 57 \/ n = 45) s -> chars name2 s.
Proof. apply chars_impl. unfold name2. lia. Qed.
Lemma show_acc_dig f : forall n acc, chars (fun n => 48 <= n <= 57 \/ n = 45) acc -> chars (fun n => 48 <= n <= 57 \/ n = 45) (show_acc f n acc).
Proof.
  induction f as [|f IH]; intros n acc H; [exact H|]. cbn [show_acc]. pose proof (Z.mod_pos_bound n 10 ltac:(lia)).
  assert (48 <= b2z (digit (n mod 10)) <= 57 \/ b2z (digit (n mod 10)) = 45) by (rewrite b2z_digit by lia; lia).
  destruct (n <? 10); [|apply IH]; apply chars_cons; auto.
Qed.
Lemma fmt_i_name2 z : chars name2 (fmt_i z).
Proof.
  apply num_name2. unfold fmt_i. destruct (z <? 0); [|apply show_acc_dig, chars_nil].
  apply chars_cons. split; [right; reflexivity|]. apply show_acc_dig, chars_nil.
Qed.
Lemma data_name k : xml_name ("Data_" ++ fmt_i k).
Proof.
  exists "D"%char, ("ata_" ++ fmt_i k). split; [reflexivity|]. split; [unfold name1; cbn; lia|]. apply chars_app. split; [|apply fmt_i_name2].
  intros c Hc. apply name_char_2. revert c Hc. apply forallb_forall. reflexivity.
Qed.
Lemma data_line k d :
  Seq (TAB ++ TAB ++ "<Data_" ++ fmt_i (sz2i (Z.of_nat k)) ++ " type=" ++ Q ++ fmt_i (dl_type d) ++ Q ++
               " size_i=" ++ Q ++ fmt_i (sz2i (dl_size d)) ++ Q ++ " file_pt=" ++ Q ++ fmt_li (dl_pt d) ++ Q ++
               " min=" ++ Q ++ fmt_le (dl_min d) ++ Q ++ " max=" ++ Q ++ fmt_le (dl_max d) ++ Q ++ "/>") [data_node (k, d)].
Proof.
  match goal with |- Seq ?s _ => replace s with ((TAB ++ TAB) ++ closed_text ("Data_" ++ fmt_i (sz2i (Z.of_nat k))) (data_attrs d)) end.
  - apply Seq_front; [apply lit_space; reflexivity|]. apply Seq_closed; [apply data_name|]. split.
    + cbn. distinct.
    + unfold data_attrs. repeat (apply Forall_cons; [cbn [fst snd]; split; [apply lit_name; reflexivity|apply num_value; first [apply num_i|apply num_li|apply num_le]]|]). apply Forall_nil.
  - unfold closed_text, data_attrs. cbn [attrs_text]. unfold attr_text, Q. rewrite ?append_assoc. cbn [append]. rewrite ?append_assoc. reflexivity.
Qed.

(** ** Zones *)

Definition type_comment : string := "1=Float, 2=Double, 3=LongInt, 4=ShortInt, 5=Byte, 6=Bit".
Definition zone_kids (g : zone_log) : list node :=
  let z := zl_zone g in let r := zl_real g in
  ([txt "ZoneName" (z_name z); txt "StrandId" (fmt_i (z_strand z))]
   ++ (if z_strand z =? -1 then [] else [txt "SolutionTime" (fmt_le (z_time z))])
   ++ [txt "Org_Dim" (fmt_i (r_dim r)); txt "Real_Dim" (fmt_i (r_rdim r)); node3 "Org_Max" (z_max z); node3 "Skip" (z_skip z);
       node3 "Begin" (z_begin z); node3 "End" (z_end z); node3 "Real_Max" (r_max r)]
   ++ aux_nodes (z_aux z)
   ++ [NComment type_comment; NElem "Datas" [] (map data_node (numbered 0 (zl_data g)))])%list.
Definition zone_node (g : zone_log) : node := NElem "Zone" [("ZoneName", z_name (zl_zone g))] (zone_kids g).

Lemma emit_lines L t : emit L = Ok t -> t = map line_text L.
Proof. destruct (emit_cases L) as [[_ ->]|[_ ->]]; [intros [= <-]; reflexivity|discriminate]. Qed.

Ltac one_line := cbn [line_text piece_text]; rewrite ?append_nil_r.
Ltac txt_line := one_line; match goal with |- Seq _ [txt ?n ?s] => change (Seq (TAB ++ elem_text n [] s) [txt n s]) end; apply Seq_front; [apply lit_space; reflexivity|]; apply Seq_txt; [apply lit_name; reflexivity|].

Lemma comment_line s : nonul s -> (forall x, parse_text "-->" (s ++ "-->" ++ x) = Some (s, x)) -> chars plain s -> Seq (TAB ++ "<!--" ++ s ++ "-->") [NComment s].
Proof. intros H1 H2 H3. apply Seq_front; [apply lit_space; reflexivity|]. apply Seq_comment; assumption. Qed.
Lemma lit_plain s : forallb (fun c => let n := b2z c in negb (n =? 0) && negb (n =? 13) && negb (n =? 38) && negb (n =? 60)) (list_ascii_of_string s) = true -> chars plain s.
Proof.
  apply (lit_chars plain (fun n => negb (n =? 0) && negb (n =? 13) && negb (n =? 38) && negb (n =? 60))).
  intros n. rewrite !andb_true_iff, !negb_true_iff, !Z.eqb_neq. unfold plain. tauto.
Qed.

Lemma zone_attrs z : xml_zone z -> good_attrs [("ZoneName", z_name z)].
Proof. intros (N2 & _). split; [cbn; distinct|]. apply Forall_cons; [|apply Forall_nil]. split; [apply lit_name; reflexivity|exact N2]. Qed.
Lemma zone_body g t d : zone_xml g = Ok t -> xml_zone (zl_zone g) ->
  exists ls, t = (("" ++ "<" ++ "Zone" ++ attrs_text [("ZoneName", z_name (zl_zone g))] ++ ">")%string :: ls ++ [("" ++ "</" ++ "Zone" ++ ">")%string])%list /\
    Seq (zone_text_out d ls) (zone_kids g).
Proof.
  intros E (N2 & NA). pose proof (value_plain _ N2) as N1. apply emit_lines in E. subst t. destruct g as [z r ds sz ec js xm]. cbn [zl_zone zl_real zl_data] in *.
  assert (NN : nonul (z_name z)) by apply plain_nonul, N1.
  match goal with |- exists ls, map line_text (?A ++ ?B ++ ?C ++ ?D ++ ?X ++ ?Y ++ ?Z) = _ /\ _ =>
    exists (map line_text (tl A ++ B ++ C ++ D ++ X ++ Y ++ [[Lit (TAB ++ "</Datas>")%string]])) end.
  split.
  { rewrite !map_app, <- !app_assoc. cbn [tl map app]. f_equal.
    one_line. rewrite c_str_id by assumption. cbn [attrs_text]. unfold attr_text, Q. rewrite ?append_assoc. cbn [append]. rewrite ?append_assoc. reflexivity. }
  cbn [tl].
  unfold zone_kids. cbn [zl_zone zl_real zl_data]. rewrite !map_app.
  apply Seq_out_app.
  { cbn [map]. apply (Seq_out_cons d _ _ [_] [_]).
    - rewrite c_str_id by assumption. txt_line. exact N1.
    - apply (Seq_out_cons d _ _ [_] []); [|apply Seq_out_nil]. txt_line. apply num_chars, num_i. }
  apply Seq_out_app.
  { destruct (z_strand z =? -1); [apply Seq_out_nil|]. cbn [map]. apply (Seq_out_cons d _ _ [_] []); [|apply Seq_out_nil]. txt_line. apply num_chars, num_le. }
  apply Seq_out_app.
  { cbn [map]. apply (Seq_out_cons d _ _ [_]); [txt_line; apply num_chars, num_i|].
    apply (Seq_out_cons d _ _ [_]); [txt_line; apply num_chars, num_i|].
    repeat (apply (Seq_out_cons d _ _ [_]); [apply line3, lit_name; reflexivity|]). apply Seq_out_nil. }
  apply Seq_out_app; [apply aux_lines, NA|].
  rewrite <- !map_app. cbn [app]. cbn [map]. apply (Seq_out_cons d _ _ [_]).
  { one_line. apply (comment_line type_comment); [apply lit_nonul; reflexivity|intros [|c x]; reflexivity|apply lit_plain; reflexivity]. }
  rewrite map_app. cbn [map]. one_line. rewrite map_map.
  apply (Seq_block d TAB "Datas" []); [apply lit_space; reflexivity|apply lit_name; reflexivity|apply no_attrs|].
  apply Seq_out_map. intros [k dl] _. cbn [line_text piece_text]. rewrite append_nil_r. apply data_line.
Qed.
Lemma zone_lines g t d : zone_xml g = Ok t -> xml_zone (zl_zone g) -> Seq (zone_text_out d t) [zone_node g].
Proof.
  intros E H. destruct (zone_body g t d E H) as (ls & -> & HS). apply Seq_block; [apply chars_nil|apply lit_name; reflexivity|apply zone_attrs, H|exact HS].
Qed.

(** ** Files *)

Definition file_comment : string := "0 = FULL, 1 = GRID, 2 = SOLUTION".
Definition var_node (kv : nat * string) : node := NElem (snd kv) [("i", fmt_i (sz2i (Z.of_nat (fst kv))))] [].
Definition file_kids (g : file_log) : list node :=
  let f := fl_file g in
  ([txt "FileName" (f_name f ++ ".plt"); txt "FilePath" (f_path f); txt "Time" (fl_begin g); txt "UsingTime" (fmt_lf 5 (fl_using g));
    txt "Title" (f_title f); NComment file_comment; txt "FileType" (fmt_i (f_type f));
    NElem "Variables" [] (map var_node (numbered 0 (f_vars f)))]
   ++ aux_nodes (f_aux f) ++ [NElem "Zones" [] (map zone_node (fl_zones g))])%list.
Definition file_node (g : file_log) : node := NElem "File" [("FileName", f_name (fl_file g))] (file_kids g).

Lemma line_text_app a b : line_text (a ++ b) = line_text a ++ line_text b.
Proof. induction a as [|p a IH]; [reflexivity|]. cbn [app line_text]. rewrite IH, append_assoc. reflexivity. Qed.
Lemma numbered_in {A} (l : list A) : forall k p, In p (numbered k l) -> In (snd p) l.
Proof. induction l as [|a l IH]; intros k p H; [destruct H|]. destruct H as [<-|H]; [left; reflexivity|right; eapply IH; exact H]. Qed.

Lemma vars_line vs : Forall xml_name vs ->
  Seq (line_text (Lit (TAB ++ "<Variables>")
        :: map (fun kv => let '(k, v) := kv in
             Buf (" <" ++ c_str v ++ " i=" ++ Q ++ fmt_i (sz2i (Z.of_nat k)) ++ Q ++ "/>")) (numbered 0 vs)
        ++ [Lit " </Variables>"])%list) [NElem "Variables" [] (map var_node (numbered 0 vs))].
Proof.
  intros H. cbn [line_text piece_text]. rewrite line_text_app. cbn [line_text piece_text]. rewrite append_nil_r.
  set (m := line_text _).
  change ((TAB ++ "<Variables>") ++ m ++ " </Variables>") with (TAB ++ elem_text "Variables" [] (m ++ " ")) || 
  replace ((TAB ++ "<Variables>") ++ m ++ " </Variables>") with (TAB ++ elem_text "Variables" [] (m ++ " "))
    by (unfold elem_text; cbn [attrs_text append]; rewrite ?append_assoc; reflexivity).
  apply Seq_front; [apply lit_space; reflexivity|]. apply Seq_elem; [apply lit_name; reflexivity|apply no_attrs|]. apply Seq_Body.
  apply Seq_back; [apply lit_space; reflexivity|]. subst m.
  assert (HF : forall p, In p (numbered 0 vs) -> xml_name (snd p)) by (intros p Hp; rewrite Forall_forall in H; apply H; eapply numbered_in; exact Hp).
  clear H. induction (numbered 0 vs) as [|[k v] l IH]; [apply Seq_nil|]. cbn [map line_text piece_text].
  assert (Hv : xml_name v) by (apply (HF (k, v)); left; reflexivity).
  apply (Seq_app _ [var_node (k, v)] _ (map var_node l)); [|apply IH; intros p Hp; apply HF; right; exact Hp].
  rewrite c_str_id by (apply name_nonul, Hv).
  replace (" <" ++ v ++ " i=" ++ Q ++ fmt_i (sz2i (Z.of_nat k)) ++ Q ++ "/>") with (" " ++ closed_text v [("i", fmt_i (sz2i (Z.of_nat k)))]).
  - apply Seq_front; [apply lit_space; reflexivity|]. apply Seq_closed; [exact Hv|]. split; [cbn; distinct|].
    apply Forall_cons; [|apply Forall_nil]. split; [apply lit_name; reflexivity|apply num_value, num_i].
  - unfold closed_text. cbn [attrs_text]. unfold attr_text, Q. rewrite ?append_assoc. cbn [append]. rewrite ?append_assoc. reflexivity.
Qed.

(** The text of a file with the texts of its zones. *)
Lemma lines_out zd d zt A B : Forall (fun s => s <> ZONE_LINE) A -> Forall (fun s => s <> ZONE_LINE) B -> forall zs,
  file_text_out zd d zt zs (A ++ map (fun _ => ZONE_LINE) zs ++ B) =
  Ok (zone_text_out d A ++ String.concat "" (map (fun z => zone_text_out zd (zt z)) zs) ++ zone_text_out d B).
Proof.
  intros HA HB. assert (HB' : forall zs, file_text_out zd d zt zs B = Ok (zone_text_out d B)).
  { intros zs. induction HB as [|s B H1 H2 IH]; [reflexivity|]. cbn [file_text_out]. destruct (String.eqb_spec s ZONE_LINE); [contradiction|].
    rewrite IH, out_cons. reflexivity. }
  intros zs. induction HA as [|s A H1 H2 IH].
  - cbn [app]. induction zs as [|z zs IHz]; [exact (HB' [])|]. cbn [map app file_text_out]. rewrite String.eqb_refl, IHz. cbn [rbind].
    rewrite concat_empty_cons. cbn [zone_text_out map String.concat]. cbn [append]. rewrite append_assoc. reflexivity.
  - cbn [app file_text_out]. destruct (String.eqb_spec s ZONE_LINE); [contradiction|]. rewrite IH, out_cons. cbn [rbind]. rewrite append_assoc. reflexivity.
Qed.

Lemma name_plt s : plain_value s -> plain_text (s ++ ".plt").
Proof.
  intros H. split; [apply chars_app; split; [apply value_plain, H|apply lit_plain; reflexivity]|]. rewrite chars_app. intros [_ C].
  specialize (C "."%char (or_introl eq_refl)). unfold space in C. cbn in C. lia.
Qed.

Section File_text.
Variables (g : file_log) (t : list string) (d : nat).
Hypothesis ET : file_xml g = Ok t.
Hypothesis HX : fl_xml g = t.
Hypothesis HZ : Forall (fun z => zone_xml z = Ok (zl_xml z)) (fl_zones g).
Hypothesis HS : xml_plain (fl_file g).
Hypothesis HF : map zl_zone (fl_zones g) = f_zones (fl_file g).
Hypothesis HB : chars plain (fl_begin g).

Lemma zones_text : Seq (String.concat "" (map (fun z => zone_text_out (d + 2) (zl_xml z)) (fl_zones g))) (map zone_node (fl_zones g)).
Proof.
  rewrite <- (flat_map_concat_map (fun z => [zone_node z])) || idtac.
  destruct HS as (_ & _ & _ & _ & _ & HZS). rewrite <- HF in HZS. clear - HZ HZS.
  induction (fl_zones g) as [|z zs IH]; [apply Seq_nil|]. cbn [map] in *. inversion_clear HZ as [|? ? Z1 Z2]. inversion_clear HZS as [|? ? S1 S2].
  rewrite concat_empty_cons. apply (Seq_app _ [zone_node z] _ (map zone_node zs)); [|apply IH; assumption].
  apply zone_lines; assumption.
Qed.

Lemma file_lines : exists m, write_xml g d =
    Ok (tabs d ++ elem_text "File" [("FileName", f_name (fl_file g))] m ++ NL) /\ Seq m (file_kids g).
Proof.
  destruct HS as (S1 & S2 & S3 & S4 & S5 & _). unfold write_xml. rewrite HX.
  apply emit_lines in ET. rewrite ET.
  match goal with |- context [map line_text (?A ++ ?B ++ ?C ++ ?D ++ ?E)] =>
    assert (EL : map line_text (A ++ B ++ C ++ D ++ E) =
      (((("" ++ "<" ++ "File" ++ attrs_text [("FileName", f_name (fl_file g))] ++ ">")%string :: (map line_text (tl A) ++ map line_text B)) ++ [(TAB ++ "<Zones>")%string])
        ++ map (fun _ => ZONE_LINE) (fl_zones g) ++ [(TAB ++ "</Zones>")%string; ("" ++ "</" ++ "File" ++ ">")%string])%list) end.
  { rewrite !map_app, <- !app_assoc. cbn [tl map app]. rewrite map_map. f_equal.
    one_line. rewrite c_str_id by (apply plain_nonul, value_plain, S1). cbn [attrs_text]. unfold attr_text, Q. rewrite ?append_assoc. cbn [append]. rewrite ?append_assoc. reflexivity. }
  rewrite EL. rewrite lines_out; cycle 1.
  { cbn [app]. apply Forall_cons; [discriminate|]. rewrite <- !app_assoc. cbn [tl map app].
    repeat (apply Forall_cons; [discriminate|]). apply Forall_app. split; [|repeat (apply Forall_cons; [discriminate|]); apply Forall_nil].
    apply Forall_forall. intros s Hs. apply in_map_iff in Hs. destruct Hs as (p & <- & Hp). unfold aux_xml in Hp.
    destruct (f_aux (fl_file g)) as [|q a]; [destruct Hp|]. cbn [app] in Hp. destruct Hp as [<-|Hp]; [discriminate|].
    apply in_app_or in Hp. destruct Hp as [Hp|[<-|[]]]; [|discriminate]. apply in_map_iff in Hp. destruct Hp as (u & <- & _). discriminate. }
  { repeat (apply Forall_cons; [discriminate|]). apply Forall_nil. }
  rewrite out_app, !out_cons. set (Z := String.concat "" _). set (M := zone_text_out d (map line_text _ ++ map line_text _)).
  cbn [zone_text_out map String.concat]. rewrite !append_nil_r.
  exists (NL ++ (M ++ line_out d (TAB ++ "<Zones>") ++ Z ++ line_out d (TAB ++ "</Zones>")) ++ tabs d ++ ""). split.
  - f_equal. pose proof (block_text d "" "File" [("FileName", f_name (fl_file g))] (M ++ line_out d (TAB ++ "<Zones>") ++ Z ++ line_out d (TAB ++ "</Zones>"))) as BT.
    rewrite append_nil_r in BT |- *. rewrite <- BT.
    + rewrite ?append_assoc. reflexivity.
    + apply chars_nil.
    + apply lit_name; reflexivity.
    + split; [cbn; distinct|]. apply Forall_cons; [|apply Forall_nil]. split; [apply lit_name; reflexivity|exact S1].
  - apply block_body; [apply chars_nil|]. unfold file_kids.
    match goal with |- Seq _ (?a ++ ?b ++ ?c)%list => rewrite (app_assoc a b c) end. apply Seq_app.
    2: { apply (Seq_wrap d TAB "Zones" []); [apply lit_space; reflexivity|apply lit_name; reflexivity|apply no_attrs|apply zones_text]. }
    subst M. apply Seq_out_app; [|apply aux_lines, S5]. cbn [tl map].
    apply (Seq_out_cons d _ _ [_]); [rewrite c_str_id by (apply plain_nonul, name_plt, S1); txt_line; apply name_plt, S1|].
    apply (Seq_out_cons d _ _ [_]); [rewrite c_str_id by (apply plain_nonul, S2); txt_line; exact S2|].
    apply (Seq_out_cons d _ _ [_]); [rewrite c_str_id by (apply plain_nonul, HB); txt_line; exact HB|].
    apply (Seq_out_cons d _ _ [_]); [txt_line; apply num_chars, num_lf|].
    apply (Seq_out_cons d _ _ [_]); [rewrite c_str_id by (apply plain_nonul, S3); txt_line; exact S3|].
    apply (Seq_out_cons d _ _ [_]); [one_line; apply (comment_line file_comment); [apply lit_nonul; reflexivity|intros [|c x]; reflexivity|apply lit_plain; reflexivity]|].
    apply (Seq_out_cons d _ _ [_]); [txt_line; apply num_chars, num_i|].
    apply (Seq_out_cons d _ _ [_] []); [apply vars_line, S4|apply Seq_out_nil].
Qed.

(** The document. *)
Lemma parse_decl x : parse true true (xml_line ++ x) = push (NDecl ("xml version=" ++ Q ++ "1.0" ++ Q ++ " encoding=" ++ Q ++ "UTF-8" ++ Q)) (parse true true x).
Proof.
  rewrite parse_eq. destruct x as [|c x]; reflexivity.
Qed.
Lemma load_parse x p : nonul x -> read_bom (skip_ws x) = p -> p <> "" ->
  load_text x = match parse true true p with Done k _ => inl k | Fail e => inr e end.
Proof. intros N E H. unfold load_text. rewrite (c_str_id _ N), E. destruct p as [|c p]; [contradiction|reflexivity]. Qed.
Lemma decl_first x : read_bom (skip_ws (xml_line ++ x)) = xml_line ++ x.
Proof. reflexivity. Qed.
Lemma file_parses : exists y, xml_file g d = Ok (xml_line ++ y) /\ nonul (xml_line ++ y) /\
  exists dn, is_elem dn = false /\ parse true true (xml_line ++ y) = Done [dn; file_node g] None.
Proof.
  destruct file_lines as (m & E & Hm). unfold xml_file. rewrite E. cbn [rbind]. eexists. split; [reflexivity|].
  assert (NA : good_attrs [("FileName", f_name (fl_file g))]).
  { split; [cbn; distinct|]. apply Forall_cons; [|apply Forall_nil]. split; [apply lit_name; reflexivity|apply HS]. }
  split.
  { capp; try (apply lit_nonul; reflexivity); [apply space_nonul, tabs_space|]. apply elem_nonul; [apply lit_name; reflexivity|exact NA|apply Hm]. }
  eexists. split.
  2: { rewrite parse_decl.
       rewrite (parse_ws true true NL) by (apply NL_space || (unfold lt_ahead; rewrite skip_ws_app by apply tabs_space; eexists; reflexivity)).
       rewrite (parse_ws true true (tabs d)) by (apply tabs_space || (eexists; reflexivity)).
       rewrite (parse_elem true true "File" _ m (file_kids g)) by (exact NA || (apply Seq_Body, Hm) || (apply lit_name; reflexivity)).
       rewrite parse_blank by apply NL_space. reflexivity. }
  reflexivity.
Qed.
Lemma file_loads : exists x, xml_file g d = Ok x /\ nonul x /\
  exists dn, is_elem dn = false /\ load_text x = inl [dn; file_node g].
Proof.
  destruct file_parses as (y & E & NN & dn & Hd & EP). exists (xml_line ++ y). split; [exact E|]. split; [exact NN|]. exists dn. split; [exact Hd|].
  rewrite (load_parse _ _ NN (decl_first _)) by discriminate. rewrite EP. reflexivity.
Qed.
End File_text.
