(** Logs read back from the XML text written for them. *)

From Coq Require Import ZArith Ascii String List Bool Lia.
From Verif Require Import Base M_Bytes M_TecZone M_TecFile Spec_Loop Spec_Tec Spec_Plt Spec_Aux Spec_Xml L_Base L_Loop L_TecZone L_TecMin L_Text L_Plt
  L_TecWrite L_TecFile L_TecText L_TecWhole L_TecProp L_Aux L_ReadLog
  M_Scan M_Xml M_ReadXml L_Scan L_ScanF L_Near L_Xml L_XmlSeq L_XmlText.
Import ListNotations.
Open Scope string_scope.
Open Scope Z_scope.

(** ** Auxiliary data *)

Lemma before_asym a b : before a b -> str_lt b a = false.
Proof.
  intros H. destruct (str_lt b a) eqn:E; [|reflexivity]. apply str_lt_before in H. pose proof (str_lt_trans _ _ _ H E) as C.
  rewrite str_lt_irrefl in C. discriminate.
Qed.
Lemma assign_last a k v : Forall (fun q => before (fst q) k) a -> aux_assign a k v = (a ++ [(k, v)])%list.
Proof.
  induction 1 as [|[k' v'] a H1 H2 IH]; [reflexivity|]. cbn [aux_assign app fst] in *. rewrite (before_asym _ _ H1).
  apply str_lt_before in H1. rewrite H1, IH. reflexivity.
Qed.
Lemma get_txt n s : get_text (txt n s) = if blank s then None else Some s.
Proof. unfold txt, get_text. cbn [kids]. destruct (blank s); reflexivity. Qed.
Lemma num_blank s : num_text s -> blank s = false.
Proof. intros H. destruct (blank s) eqn:E; [|reflexivity]. apply blank_iff in E. destruct (num_plain s H) as [_ N]. contradiction. Qed.
Lemma int_txt m z : q_int_text (txt m (fmt_i z)) = scan_int (fmt_i z).
Proof. unfold q_int_text. rewrite get_txt, num_blank by apply num_i. reflexivity. Qed.
Lemma double_txt m s : num_text s -> q_double_text (txt m s) = scan_double s.
Proof. intros H. unfold q_double_text. rewrite get_txt, num_blank by exact H. reflexivity. Qed.

Definition blanks (a : aux) : bool := existsb (fun p => blank (snd p)) a.
Lemma aux_of_all a : forall acc, in_order (acc ++ a) ->
  aux_of (map (fun p => txt (fst p) (snd p)) a) acc = if blanks a then UB else Ok (acc ++ a)%list.
Proof.
  induction a as [|[k v] a IH]; intros acc H; [rewrite app_nil_r; reflexivity|]. cbn [map aux_of blanks existsb fst snd].
  rewrite get_txt. destruct (blank v); [reflexivity|]. cbn [str rbind orb]. change (name_of (txt k v)) with k. rewrite assign_last.
  - rewrite IH by (rewrite <- app_assoc; exact H). rewrite <- app_assoc. reflexivity.
  - clear IH. induction acc as [|q acc IH]; [constructor|]. cbn [app] in H. inversion_clear H as [|? ? H1 H2]. constructor; [|apply IH, H2].
    apply Forall_app in H1. destruct H1 as [_ H1]. inversion_clear H1. assumption.
Qed.
Lemma all_elems {A} (f : A -> node) l : (forall a, is_elem (f a) = true) -> filter is_elem (map f l) = map f l.
Proof. intros H. induction l as [|a l IH]; [reflexivity|]. cbn [map filter]. rewrite H, IH. reflexivity. Qed.

Definition aux_node (a : aux) : node := NElem "Auxiliary" [] (map (fun p => txt (fst p) (snd p)) a).
Definition aux_child (a : aux) : option node := match a with [] => None | _ => Some (aux_node a) end.
Lemma read_aux_ok n a : child n "Auxiliary" = aux_child a -> in_order a -> read_aux n = if blanks a then UB else Ok a.
Proof.
  intros E H. unfold read_aux. rewrite E. destruct a as [|p a]; [reflexivity|]. cbn [aux_child]. set (b := p :: a) in *. clearbody b.
  unfold elems, aux_node. cbn [kids]. rewrite all_elems by reflexivity. apply (aux_of_all b []). exact H.
Qed.

(** ** Zones *)

Definition data_ints (d : data_log) : Prop :=
  in_int (dl_type d) /\ 0 <= dl_size d <= INT_MAX /\ - 2 ^ 63 <= dl_pt d < 2 ^ 63.
Definition ints3 (v : v3) : Prop := in_int (x0 v) /\ in_int (x1 v) /\ in_int (x2 v).
Definition zone_ints (g : zone_log) : Prop :=
  let z := zl_zone g in let r := zl_real g in
  in_int (z_strand z) /\ in_int (r_dim r) /\ in_int (r_rdim r) /\ ints3 (z_max z) /\ ints3 (z_skip z) /\ ints3 (z_begin z) /\
  ints3 (z_end z) /\ ints3 (r_max r) /\ Forall data_ints (zl_data g).

Lemma sz2i_size n : 0 <= n <= INT_MAX -> sz2i n = n.
Proof. intros H. rewrite <- (Z2Nat.id n) by lia. apply sz2i_small. rewrite Z2Nat.id; lia. Qed.

Lemma read_data u k d : data_ints d -> exists d', data_of u (data_node (k, d)) = Ok d' /\ same_data d d'.
Proof.
  intros (H1 & H2 & H3). destruct (scan_le (dl_min d)) as (mn & E1 & N1). destruct (scan_le (dl_max d)) as (mx & E2 & N2).
  exists (mkDL (dl_type d) (dl_size d) (dl_pt d) mn mx). split.
  - unfold data_of. change (q_int_attr (data_node (k, d)) "type") with (scan_int (fmt_i (dl_type d))).
    change (q_unsigned_attr (data_node (k, d)) "size_i") with (scan_unsigned (fmt_i (sz2i (dl_size d)))).
    change (attribute (attrs (data_node (k, d))) "file_pt") with (Some (fmt_li (dl_pt d))).
    change (q_double_attr (data_node (k, d)) "min") with (scan_double (fmt_le (dl_min d))).
    change (q_double_attr (data_node (k, d)) "max") with (scan_double (fmt_le (dl_max d))).
    rewrite scan_int_fmt by exact H1. cbn [rbind assigned]. rewrite sz2i_size, scan_unsigned_fmt by exact H2. cbn [rbind assigned str].
    rewrite strtol_fmt by exact H3. rewrite E1, E2. reflexivity.
  - unfold same_data. cbn [dl_type dl_size dl_pt dl_min dl_max]. auto.
Qed.
Lemma map_res_all {A B C} (f : B -> res C) (g : A -> B) (R : A -> C -> Prop) l :
  (forall a, In a l -> exists c, f (g a) = Ok c /\ R a c) -> exists cs, map_res f (map g l) = Ok cs /\ Forall2 R l cs.
Proof.
  induction l as [|a l IH]; intros H; [exists []; split; [reflexivity|constructor]|].
  destruct (H a (or_introl eq_refl)) as (c & E & Hc). destruct IH as (cs & E2 & Hcs); [intros b Hb; apply H; right; exact Hb|].
  exists (c :: cs). cbn [map map_res]. rewrite E, E2. split; [reflexivity|constructor; assumption].
Qed.
Lemma numbered_snd {A C} (R : A -> C -> Prop) l : forall k cs, Forall2 (fun p c => R (snd p) c) (numbered k l) cs -> Forall2 R l cs.
Proof.
  induction l as [|a l IH]; intros k cs H; cbn [numbered] in H; inversion_clear H as [|? ? ? ? H1 H2]; constructor; [assumption|eapply IH; eassumption].
Qed.

Lemma zone_children g : let n := zone_node g in let z := zl_zone g in let r := zl_real g in
  need n "ZoneName" = Ok (txt "ZoneName" (z_name z)) /\ need n "StrandId" = Ok (txt "StrandId" (fmt_i (z_strand z))) /\
  (z_strand z =? -1 = false -> need n "SolutionTime" = Ok (txt "SolutionTime" (fmt_le (z_time z)))) /\
  need n "Org_Dim" = Ok (txt "Org_Dim" (fmt_i (r_dim r))) /\ need n "Real_Dim" = Ok (txt "Real_Dim" (fmt_i (r_rdim r))) /\
  need n "Org_Max" = Ok (node3 "Org_Max" (z_max z)) /\ need n "Skip" = Ok (node3 "Skip" (z_skip z)) /\
  need n "Begin" = Ok (node3 "Begin" (z_begin z)) /\ need n "End" = Ok (node3 "End" (z_end z)) /\
  need n "Real_Max" = Ok (node3 "Real_Max" (r_max r)) /\ child n "Auxiliary" = aux_child (z_aux z) /\
  need n "Datas" = Ok (NElem "Datas" [] (map data_node (numbered 0 (zl_data g)))).
Proof.
  cbv zeta. unfold need, child, elems, zone_node. cbn [kids]. unfold zone_kids. cbv zeta.
  destruct (z_strand (zl_zone g) =? -1); destruct (z_aux (zl_zone g)) as [|p a]; cbn [app aux_nodes].
  all: repeat (split; [reflexivity || discriminate|]); reflexivity.
Qed.

Lemma read_int n name m z d : need n name = Ok (txt m (fmt_i z)) -> in_int z -> int_of n name d = Ok z.
Proof. intros E H. unfold int_of. rewrite E. cbn [rbind]. rewrite int_txt, scan_int_fmt by exact H. reflexivity. Qed.
Lemma read_v3 u n name m v : need n name = Ok (node3 m v) -> ints3 v -> v3_of u n name = Ok v.
Proof.
  intros E (H0 & H1 & H2). unfold v3_of. rewrite E. cbn [rbind].
  change (elems (node3 m v)) with [txt "I" (fmt_i (x0 v)); txt "J" (fmt_i (x1 v)); txt "K" (fmt_i (x2 v))]. cbn [ints_of].
  rewrite !int_txt, !scan_int_fmt by assumption. cbn [rbind keep map_res]. destruct v. reflexivity.
Qed.
Lemma read_txt n name m s : need n name = Ok (txt m s) -> text_of n name = if blank s then UB else Ok s.
Proof. intros E. unfold text_of. rewrite E. cbn [rbind]. rewrite get_txt. destruct (blank s); reflexivity. Qed.

Definition zone_blank (z : zone) : bool := blank (z_name z) || blanks (z_aux z).
Lemma read_zone_ok u g : zone_ints g -> xml_zone (zl_zone g) ->
  if zone_blank (zl_zone g) then read_zone_with u (zone_node g) = UB else exists g', read_zone_with u (zone_node g) = Ok g' /\ same_zone g g'.
Proof.
  intros (I1 & I2 & I3 & I4 & I5 & I6 & I7 & I8 & I9) (_ & NA & _). unfold zone_blank.
  pose proof (zone_children g) as H. cbv zeta in H. destruct H as (C1 & C2 & C3 & C4 & C5 & C6 & C7 & C8 & C9 & C10 & C11 & C12).
  unfold read_zone_with. rewrite (read_txt _ _ _ _ C1). destruct (blank (z_name (zl_zone g))); [reflexivity|]. cbn [rbind orb]. rewrite C2. cbn [rbind].
  rewrite int_txt, scan_int_fmt by exact I1.
  cbn [rbind assigned].
  assert (ET : exists y, (if z_strand (zl_zone g) =? -1 then Ok 0 else double_of (zone_node g) "SolutionTime" u) = Ok y /\
    (z_strand (zl_zone g) <> -1 -> near (z_time (zl_zone g)) y)).
  { destruct (Z.eqb_spec (z_strand (zl_zone g)) (-1)) as [E|E]; [exists 0; split; [reflexivity|contradiction]|].
    destruct (scan_le (z_time (zl_zone g))) as (y & E1 & N1). exists y. split; [|intros _; exact N1]. unfold double_of.
    rewrite (C3 eq_refl). cbn [rbind]. rewrite double_txt, E1 by apply num_le. reflexivity. }
  destruct ET as (y & -> & Ny). cbn [rbind].
  rewrite (read_int _ _ _ _ _ C4 I2), (read_int _ _ _ _ _ C5 I3). cbn [rbind].
  rewrite (read_v3 _ _ _ _ _ C6 I4), (read_v3 _ _ _ _ _ C7 I5), (read_v3 _ _ _ _ _ C8 I6), (read_v3 _ _ _ _ _ C9 I7), (read_v3 _ _ _ _ _ C10 I8). cbn [rbind].
  rewrite (read_aux_ok _ _ C11 NA). destruct (blanks (z_aux (zl_zone g))); [reflexivity|].
  cbn [rbind]. rewrite C12. cbn [rbind]. unfold elems. cbn [kids]. rewrite all_elems by reflexivity.
  destruct (map_res_all (data_of u) data_node (fun p c => same_data (snd p) c) (numbered 0 (zl_data g))) as (ds & E & Hd).
  { intros [k d] Hd. cbn [snd]. apply read_data. rewrite Forall_forall in I9. apply I9. apply (numbered_in _ _ _ Hd). }
  rewrite E. cbn [rbind]. eexists. split; [reflexivity|]. apply numbered_snd in Hd.
  unfold same_zone. cbn [zl_zone zl_real zl_data z_name z_strand z_time z_max z_skip z_begin z_end z_aux r_dim r_rdim r_max].
  repeat (split; [first [reflexivity|exact Ny]|]). exact Hd.
Qed.

(** ** Files *)

Lemma file_children g : let n := file_node g in let f := fl_file g in
  attribute (attrs n) "FileName" = Some (f_name f) /\
  need n "FilePath" = Ok (txt "FilePath" (f_path f)) /\ need n "Time" = Ok (txt "Time" (fl_begin g)) /\
  need n "UsingTime" = Ok (txt "UsingTime" (fmt_lf 5 (fl_using g))) /\ need n "Title" = Ok (txt "Title" (f_title f)) /\
  need n "FileType" = Ok (txt "FileType" (fmt_i (f_type f))) /\
  need n "Variables" = Ok (NElem "Variables" [] (map var_node (numbered 0 (f_vars f)))) /\
  child n "Auxiliary" = aux_child (f_aux f) /\
  need n "Zones" = Ok (NElem "Zones" [] (map zone_node (fl_zones g))).
Proof.
  cbv zeta. unfold need, child, elems, file_node. cbn [kids]. unfold file_kids. cbv zeta.
  destruct (f_aux (fl_file g)) as [|p a]; cbn [app aux_nodes].
  all: repeat (split; [reflexivity|]); reflexivity.
Qed.
Lemma var_names vs : forall k, map name_of (map var_node (numbered k vs)) = vs.
Proof. induction vs as [|v vs IH]; intros k; [reflexivity|]. cbn [numbered map var_node name_of snd]. rewrite IH. reflexivity. Qed.

Lemma map_res_ub {A B C} (f : B -> res C) (g : A -> B) (t : A -> bool) (R : A -> C -> Prop) l :
  (forall a, In a l -> if t a then f (g a) = UB else exists c, f (g a) = Ok c /\ R a c) ->
  if existsb t l then map_res f (map g l) = UB else exists cs, map_res f (map g l) = Ok cs /\ Forall2 R l cs.
Proof.
  induction l as [|a l IH]; intros H; [exists []; split; [reflexivity|constructor]|]. cbn [existsb map map_res].
  pose proof (H a (or_introl eq_refl)) as Ha. destruct (t a); [rewrite Ha; reflexivity|]. destruct Ha as (c & -> & Hc). cbn [rbind orb].
  assert (IH' := IH (fun b Hb => H b (or_intror Hb))). destruct (existsb t l); [rewrite IH'; reflexivity|].
  destruct IH' as (cs & -> & Hcs). exists (c :: cs). split; [reflexivity|constructor; assumption].
Qed.

Definition file_blank (begin : string) (f : tfile) : bool :=
  blank (f_path f) || (blank begin || (blank (f_title f) || (blanks (f_aux f) || existsb zone_blank (f_zones f)))).
Lemma blanks_iff a : blanks a = true <-> exists s, In s (map snd a) /\ chars space s.
Proof.
  unfold blanks. rewrite existsb_exists. split.
  - intros (p & Hp & Hb). exists (snd p). split; [apply in_map, Hp|apply blank_iff, Hb].
  - intros (s & Hs & Hb). apply in_map_iff in Hs. destruct Hs as (p & <- & Hp). exists p. split; [exact Hp|apply blank_iff, Hb].
Qed.
Lemma zone_blank_iff z : zone_blank z = true <-> exists s, In s (z_name z :: map snd (z_aux z)) /\ chars space s.
Proof.
  unfold zone_blank. rewrite orb_true_iff, blanks_iff, blank_iff. split.
  - intros [H|(s & Hs & H)]; [exists (z_name z)|exists s]; (split; [|exact H]); [left; reflexivity|right; exact Hs].
  - intros (s & [<-|Hs] & H); [left; exact H|right; exists s; auto].
Qed.
Lemma file_blank_iff begin f : file_blank begin f = true <-> exists s, In s (begin :: contents f) /\ chars space s.
Proof.
  unfold file_blank, contents. rewrite !orb_true_iff, blanks_iff, !blank_iff, existsb_exists. split.
  - intros [H|[H|[H|[(s & Hs & H)|(z & Hz & H)]]]].
    + exists (f_path f). split; [right; left; reflexivity|exact H].
    + exists begin. split; [left; reflexivity|exact H].
    + exists (f_title f). split; [right; right; left; reflexivity|exact H].
    + exists s. split; [|exact H]. right. right. right. apply in_or_app. left. exact Hs.
    + apply zone_blank_iff in H. destruct H as (s & Hs & H). exists s. split; [|exact H]. right. right. right. apply in_or_app. right.
      apply in_flat_map. exists z. split; assumption.
  - intros (s & [<-|[<-|[<-|Hs]]] & H); [tauto|tauto|tauto|]. apply in_app_or in Hs. destruct Hs as [Hs|Hs].
    + right. right. right. left. exists s. split; assumption.
    + apply in_flat_map in Hs. destruct Hs as (z & Hz & Hs). right. right. right. right. exists z. split; [exact Hz|]. apply zone_blank_iff. exists s. split; assumption.
Qed.
Lemma safe_blank begin f : xml_safe f -> plain_text begin -> file_blank begin f = false.
Proof.
  intros [_ H] [_ Hb]. destruct (file_blank begin f) eqn:E; [|reflexivity]. apply file_blank_iff in E. destruct E as (s & [<-|Hs] & E); [contradiction|].
  rewrite Forall_forall in H. destruct (H s Hs E).
Qed.

Lemma read_file g : in_int (f_type (fl_file g)) -> xml_plain (fl_file g) -> map zl_zone (fl_zones g) = f_zones (fl_file g) -> Forall zone_ints (fl_zones g) ->
  if file_blank (fl_begin g) (fl_file g) then read_xml (file_node g) = UB else
  exists y gs, near_abs 5 (fl_using g) y /\ Forall2 same_zone (fl_zones g) gs /\
    let f := fl_file g in
    read_xml (file_node g) = gen_texts (mkFL (mkFile (f_path f) (f_name f) (f_title f) (f_vars f) (f_type f) (f_aux f) [] 0) gs (fl_begin g) "" y 0 "" [] [] []).
Proof.
  intros I1 (_ & _ & _ & _ & (NA & _) & NZ) HF I2. cbv zeta. unfold file_blank.
  pose proof (file_children g) as H. cbv zeta in H. destruct H as (C1 & C2 & C3 & C4 & C5 & C6 & C7 & C8 & C9).
  destruct (scan_lf 5 (fl_using g) ltac:(lia)) as (y & Ey & Ny).
  pose proof (map_res_ub (read_zone_with None) zone_node (fun z => zone_blank (zl_zone z)) same_zone (fl_zones g)) as HM.
  assert (HM' : forall a, In a (fl_zones g) -> if zone_blank (zl_zone a) then read_zone_with None (zone_node a) = UB else exists c, read_zone_with None (zone_node a) = Ok c /\ same_zone a c).
  { intros z Hz. rewrite Forall_forall in I2. apply read_zone_ok; [apply I2, Hz|]. rewrite <- HF in NZ. rewrite Forall_forall in NZ. apply NZ, in_map, Hz. }
  specialize (HM HM'). clear HM'.
  assert (EB : existsb zone_blank (f_zones (fl_file g)) = existsb (fun z => zone_blank (zl_zone z)) (fl_zones g)).
  { rewrite <- HF. clear. induction (fl_zones g) as [|z l IH]; [reflexivity|]. cbn [map existsb]. rewrite IH. reflexivity. }
  rewrite EB. clear EB.
  unfold read_xml. rewrite C1. cbn [str rbind]. rewrite (read_txt _ _ _ _ C2), (read_txt _ _ _ _ C3).
  destruct (blank (f_path (fl_file g))); [reflexivity|]. cbn [rbind orb]. destruct (blank (fl_begin g)); [reflexivity|]. cbn [rbind orb].
  unfold double_of. rewrite C4. cbn [rbind]. rewrite double_txt, Ey by apply num_lf.
  cbn [keep]. rewrite (read_txt _ _ _ _ C5). destruct (blank (f_title (fl_file g))); [reflexivity|]. cbn [rbind orb].
  rewrite (read_int _ _ _ _ _ C6 I1). cbn [rbind].
  rewrite C7. cbn [rbind]. rewrite (read_aux_ok _ _ C8 NA). destruct (blanks (f_aux (fl_file g))); [reflexivity|]. cbn [rbind orb]. rewrite C9. cbn [rbind]. unfold elems. cbn [kids].
  rewrite all_elems, all_elems, var_names by reflexivity. destruct (existsb _ (fl_zones g)).
  - rewrite HM. reflexivity.
  - destruct HM as (gs & E & Hg). exists y, gs. split; [exact Ny|]. split; [exact Hg|]. rewrite E. reflexivity.
Qed.

(** ** Written logs *)

Lemma gen_zone_text z z' : gen_zone z = Ok z' -> zl_xml z = [] ->
  zone_xml z' = Ok (zl_xml z') /\ zl_zone z' = zl_zone z /\ zl_real z' = zl_real z /\ zl_data z' = zl_data z.
Proof.
  unfold gen_zone. intros E Hx. destruct (zone_json z) as [j|x|]; try discriminate. cbn [rbind] in E.
  destruct (zone_xml z) as [t|x|] eqn:Et; try discriminate. cbn [rbind] in E. injection E as <-. rewrite Hx.
  destruct z as [z r ds sz ec js xm]. split; [exact Et|]. auto.
Qed.
Lemma gen_zones_text zs : forall zs', map_res gen_zone zs = Ok zs' -> Forall (fun z => zl_xml z = []) zs ->
  Forall (fun z => zone_xml z = Ok (zl_xml z)) zs' /\
  Forall2 (fun z z' => zl_zone z' = zl_zone z /\ zl_real z' = zl_real z /\ zl_data z' = zl_data z) zs zs'.
Proof.
  induction zs as [|z zs IH]; intros zs' E H; cbn [map_res] in E; [injection E as <-; split; constructor|].
  destruct (gen_zone z) as [z'|x|] eqn:Ez; try discriminate. cbn [rbind] in E.
  destruct (map_res gen_zone zs) as [r|x|] eqn:Er; try discriminate. cbn [rbind] in E. injection E as <-. inversion_clear H as [|? ? H1 H2].
  destruct (gen_zone_text _ _ Ez H1) as [G1 G2]. destruct (IH r eq_refl H2) as [R1 R2]. split; constructor; assumption.
Qed.
Lemma file_xml_same g g' : fl_file g = fl_file g' -> fl_begin g = fl_begin g' -> fl_using g = fl_using g' ->
  length (fl_zones g) = length (fl_zones g') -> file_xml g = file_xml g'.
Proof.
  intros E1 E2 E3 E4. unfold file_xml. rewrite E1, E2, E3. cbv zeta.
  assert (EM : map (fun _ => [Lit ZONE_LINE]) (fl_zones g) = map (fun _ => [Lit ZONE_LINE]) (fl_zones g')); [|rewrite EM; reflexivity].
  revert E4. generalize (fl_zones g) (fl_zones g'). induction l as [|z l IH]; intros [|z' l'] E; try discriminate; [reflexivity|].
  cbn [map]. f_equal. apply IH. injection E as E. exact E.
Qed.
Lemma gen_texts_text l g : gen_texts l = Ok g -> fl_xml l = [] -> Forall (fun z => zl_xml z = []) (fl_zones l) ->
  file_xml g = Ok (fl_xml g) /\ Forall (fun z => zone_xml z = Ok (zl_xml z)) (fl_zones g) /\
  Forall2 (fun z z' => zl_zone z' = zl_zone z /\ zl_real z' = zl_real z /\ zl_data z' = zl_data z) (fl_zones l) (fl_zones g) /\
  fl_file g = fl_file l /\ fl_begin g = fl_begin l /\ fl_using g = fl_using l.
Proof.
  unfold gen_texts. intros E Hx Hz. destruct (map_res gen_zone (fl_zones l)) as [zs|x|] eqn:Ez; try discriminate. cbn [rbind] in E.
  destruct (file_json l) as [j|x|]; try discriminate. cbn [rbind] in E.
  destruct (file_xml l) as [t|x|] eqn:Et; try discriminate. cbn [rbind] in E. injection E as <-.
  destruct (gen_zones_text _ _ Ez Hz) as [G1 G2]. rewrite Hx.
  cbn [fl_set_text fl_set_zones fl_xml fl_zones fl_file fl_begin fl_using app].
  repeat split; try assumption. rewrite <- Et. apply file_xml_same; try reflexivity.
  cbn [fl_set_text fl_set_zones fl_zones]. symmetry. exact (Forall2_len _ _ _ G2).
Qed.

Lemma samples3 r z : list3 (r_max r) = samples_of z -> zone_fits z -> ints3 (r_max r).
Proof.
  intros E ((D0 & D1 & D2) & _). destruct (r_max r) as [a b c]. unfold list3, samples_of in E. cbn [x0 x1 x2] in E. injection E as -> -> ->.
  unfold ints3. cbn [x0 x1 x2]. split; [|split]; apply samples_int; assumption.
Qed.
Lemma not_one_int a b c : in_int (not_one [a; b; c]).
Proof. rewrite not_one3. pose proof (minus1_ge a). pose proof (minus1_ge b). pose proof (minus1_ge c). unfold in_int. lia. Qed.

Lemma written_ints e f s g u : file_wf f -> plt_size f < 2 ^ 63 -> write_plt e f = Ret (s, g) u -> Forall zone_ints (fl_zones g).
Proof.
  intros Hw Hs E. destruct (plt_log e f s g u Hw Hs E) as (b & p & Hb & (_ & _ & _ & _ & Hsh) & _ & Hlz & _ & _ & _ & Hsz & Hf & _).
  pose proof (write_spec e f Hw Hs) as H. rewrite E in H. destruct H as (Hr & _ & _ & _ & pvs & _ & _ & _ & Hzz & _ & _ & _ & _ & _ & _ & _ & _ & _ & _ & gs & t & Eg & Hbare).
  destruct (not_refused_good f Hw Hr) as (_ & _ & Hg). rewrite Forall_forall in Hg.
  destruct Hw as (_ & _ & _ & Hw). rewrite Forall_forall in Hw.
  assert (HX : Forall (fun z => zl_xml z = []) gs) by (clear - Hbare; induction Hbare as [|z g' zs gs (_ & _ & _ & H) H2 IH]; constructor; assumption).
  destruct (gen_texts_text _ _ Eg eq_refl HX) as (_ & _ & HG & _). cbn [fl_zones] in HG.
  apply Forall_forall. intros zl Hzl. apply In_nth_error in Hzl. destruct Hzl as [i Hi].
  destruct (Forall2_nth_r _ _ _ _ _ HG Hi) as (g0 & Hg0 & Z1 & Z2 & Z3).
  destruct (Forall2_nth_r _ _ _ _ _ Hbare Hg0) as (z & Hz & B1 & B2 & _).
  destruct (Forall2_nth_r _ _ _ _ _ Hlz Hi) as (pz & Hpz & Hmax & Hdat).
  destruct (Forall2_nth_r _ _ _ _ _ Hsh Hpz) as (z' & Hz' & Hhead & Hvars).
  assert (z' = z) by congruence. subst z'. pose proof (nth_error_In _ _ Hz) as Hin.
  pose proof (Hg z Hin) as (Hfit & _). destruct (Hw z Hin) as (Hd & _ & _ & Hst & _ & Hdw). rewrite Forall_forall in Hdw.
  rewrite B1 in Z1. rewrite B2 in Z2. unfold zone_ints. rewrite Z1, Z2.
  destruct (fits_gather z Hfit) as (r & Er & R1 & _). destruct (gather_size z Hd) as [_ GS].
  assert (HR : real_of z = r) by (unfold real_of; rewrite Er; reflexivity). rewrite HR.
  assert (Hnb : ~ some_dir dir_bad z). { intros C. destruct (gather_size z Hd) as [GB _]. destruct (GB C) as [m Em]. congruence. }
  destruct (GS Hnb) as (r' & Er' & S1 & S2 & S3 & S4 & _). assert (r' = r) by congruence. subst r'.
  assert (DI : ints3 (z_max z) /\ ints3 (z_skip z) /\ ints3 (z_begin z) /\ ints3 (z_end z)).
  { unfold all_dirs, dir_ints in Hd. unfold ints3, in_int in *. lia. }
  split; [exact Hst|]. split; [rewrite S4; apply not_one_int|]. split; [rewrite S3; apply not_one_int|].
  split; [apply DI|]. split; [apply DI|]. split; [apply DI|]. split; [apply DI|]. split; [eapply samples3; eassumption|].
  apply Forall_forall. intros dl Hdl. apply In_nth_error in Hdl. destruct Hdl as [j Hj].
  destruct (Forall2_nth_r _ _ _ _ _ Hdat Hj) as (pv & Hpv & T1 & T2 & _ & _ & L1 & L2 & _).
  destruct (Forall2_nth_r _ _ _ _ _ Hvars Hpv) as (d & Hdj & mem & Hmem & T3 & _).
  destruct (Hdw d (nth_error_In _ _ Hdj)) as [Hmade _]. destruct (made_width d Hmade mem Hmem) as [W1 W2].
  unfold data_ints. rewrite T1, T2, T3. unfold in_int. split; [lia|]. split; [|lia].
  unfold width. destruct (d_type d) as [|q|q]; try lia. destruct q as [q|q|]; try lia; destruct q as [q|q|]; try lia; destruct q; lia.
Qed.

Lemma using_again e y : calm e -> near_abs 5 (e_using e) y -> Z.of_nat (String.length (fmt_lf 5 y)) + 24 < 200.
Proof.
  intros [_ H] N. pose proof (fmt_lf_length 5 y 19) as L. assert ((String.length (fmt_lf 5 y) <= 27)%nat); [|lia]. apply L; [lia|].
  intros v Hv. unfold near_abs in N. destruct (num64 (e_using e)) as [| |x|] eqn:Ex; try congruence.
  destruct N as (w & Ew & N). assert (w = v) by (eapply Fin_inj; congruence). subst w. specialize (H x eq_refl).
  change (Z.of_nat 20) with 20.
  assert (H0 : 2 ^ 64 * 2 < 10 ^ 20 - 1) by (vm_compute; reflexivity).
  assert (H1 : 0 < 2 ^ 1074) by (apply Z.pow_pos_nonneg; lia).
  assert (H2 : 0 < 10 ^ 15) by lia. assert (H3 : 1 < 10 ^ 5) by lia. assert (H4 : 1 < 10 ^ 15) by lia. assert (H5 : 1 < 2 ^ 64) by lia.
  revert N H H0 H1 H2 H3 H4 H5. clear. generalize (2 ^ 64) (10 ^ 20 - 1) (2 ^ 1074) (10 ^ 15) (10 ^ 5). intros a b c p q N H H0 H1 H2 H3 H4 H5.
  assert (HA : p * q * Z.abs (v - x) <= p * q * (c + Z.abs x)) by nia.
  assert (HB : Z.abs (v - x) <= c + Z.abs x) by nia. assert (Z.abs v <= c + 2 * Z.abs x) by lia. nia.
Qed.

(** The file holds one element [File], whose attributes and children are those of [file_node]. *)
Lemma written_text e f s g u depth :
  file_wf f -> plt_size f < 2 ^ 63 -> write_plt e f = Ret (s, g) u -> xml_plain f -> chars plain (e_begin e) ->
  exists t, xml_file g depth = Ok t /\ (forall fs p, fs (c_str p) = Some (list_ascii_of_string t) -> read_log fs p = read_xml (file_node g)) /\
    if file_blank (e_begin e) f then read_xml (file_node g) = UB else
    exists y gs, near_abs 5 (fl_using g) y /\ Forall2 same_zone (fl_zones g) gs /\
      read_xml (file_node g) = gen_texts (mkFL (mkFile (f_path f) (f_name f) (f_title f) (f_vars f) (f_type f) (f_aux f) [] 0) gs (fl_begin g) "" y 0 "" [] [] []).
Proof.
  intros Hw Hs E Hx Hb. pose proof (written_ints e f s g u Hw Hs E) as HI.
  pose proof (write_spec e f Hw Hs) as H. rewrite E in H.
  destruct H as (Hr & _ & Hsh & _ & pvs & _ & _ & _ & Hzz & _ & Hf & Hbeg & _ & Hus & _ & _ & _ & _ & _ & gs & t & Eg & Hbare).
  assert (HX : Forall (fun z => zl_xml z = []) gs) by (clear - Hbare; induction Hbare as [|z g' zs gs (_ & _ & _ & H) H2 IH]; constructor; assumption).
  destruct (gen_texts_text _ _ Eg eq_refl HX) as (ET & EZ & _).
  rewrite <- Hf in Hx. rewrite <- Hf in Hzz. rewrite <- Hbeg in Hb.
  destruct (file_loads g (fl_xml g) depth ET eq_refl EZ Hx Hzz Hb) as (x & Ex & NX & dn & Hdn & EL).
  assert (I1 : in_int (f_type (fl_file g))) by (rewrite Hf; apply Hw).
  pose proof (read_file g I1 Hx Hzz HI) as ER. cbv zeta in ER. rewrite Hf, Hbeg in ER.
  exists x. split; [exact Ex|]. split.
  - intros fs p Efs. unfold read_log, load_xml. rewrite Efs, string_of_list_ascii_of_string, EL.
    assert (EC : child (NElem "" [] [dn; file_node g]) (c_str "File") = Some (file_node g)).
    { unfold child, elems. cbn [kids filter]. rewrite Hdn. reflexivity. }
    rewrite EC. reflexivity.
  - rewrite Hbeg. exact ER.
Qed.

Theorem log_round_trip e f s g u depth :
  file_wf f -> plt_size f < 2 ^ 63 -> write_plt e f = Ret (s, g) u -> calm e -> xml_safe f -> plain_text (e_begin e) ->
  exists t g', xml_file g depth = Ok t /\ same_log g g' /\
    forall fs p, fs (c_str p) = Some (list_ascii_of_string t) -> read_log fs p = Ok g'.
Proof.
  intros Hw Hs E Hc Hx Hb. destruct (written_text e f s g u depth Hw Hs E (proj1 Hx) (proj1 Hb)) as (x & Ex & EL & ER).
  rewrite (safe_blank _ _ Hx Hb) in ER. destruct ER as (y & gs' & Ny & Hgs & ER).
  pose proof (write_spec e f Hw Hs) as H. rewrite E in H.
  destruct H as (Hr & _ & Hsh & _ & pvs & _ & _ & _ & Hzz & _ & Hf & Hbeg & _ & Hus & _ & _ & _ & _ & _ & gs & t & Eg & Hbare).
  match type of ER with _ = gen_texts ?l => set (l' := l) in * end.
  assert (TF : texts_fit l').
  { destruct (limits f e g Hw Hf Hbeg Hus) as [L _]; [congruence|]. destruct (L (conj Hsh Hc)) as [(T1 & T2 & T3) _].
    split; [|split].
    - destruct T1 as (A1 & A2 & A3 & A4 & A5 & A6 & A7). rewrite Hf in *. unfold xml_fits. subst l'. cbn [fl_file fl_begin fl_using f_name f_path f_title f_vars f_aux].
      repeat (split; [assumption|]). split; [|repeat (split; [assumption|]); assumption]. apply (using_again e); [exact Hc|]. rewrite <- Hus. exact Ny.
    - rewrite Hf in T2. exact T2.
    - subst l'. cbn [fl_zones]. clear - T3 Hgs. induction Hgs as [|z z' zs zs' HZ H2 IH]; [constructor|]. inversion_clear T3 as [|? ? T4 T5].
      constructor; [|apply IH, T5]. destruct HZ as (-> & _ & _ & _ & _ & _ & _ & -> & _). exact T4. }
  destruct (gen_texts_cases l') as [(_ & j & xm & gs2 & Eg2 & Et2 & _)|[C _]]; [|contradiction].
  rewrite Eg2 in ER. exists x. eexists. split; [exact Ex|]. split; cycle 1.
  - intros fs p Efs. rewrite (EL fs p Efs). exact ER.
  - unfold same_log. rewrite Hf. cbn [fl_set_text fl_set_zones fl_file fl_begin fl_using fl_zones l' f_path f_name f_title f_vars f_type f_aux].
    repeat (split; [first [reflexivity|exact Ny]|]).
    cbn [l' fl_zones] in Et2. clear - Hgs Et2. revert gs2 Et2. induction Hgs as [|z z' zs zs' HZ H2 IH]; intros [|w ws] E; try discriminate; [constructor|].
    cbn [map] in E. injection E as E1 E2 E3 E4 E5 E6. constructor; [|apply IH, E6]. unfold same_zone in *. rewrite E1, E2, E3. exact HZ.
Qed.

Theorem log_blank e f s g u depth :
  file_wf f -> plt_size f < 2 ^ 63 -> write_plt e f = Ret (s, g) u -> xml_plain f -> chars plain (e_begin e) ->
  (exists x, In x (e_begin e :: contents f) /\ chars space x) ->
  exists t, xml_file g depth = Ok t /\ forall fs p, fs (c_str p) = Some (list_ascii_of_string t) -> read_log fs p = UB.
Proof.
  intros Hw Hs E Hx Hb HB. destruct (written_text e f s g u depth Hw Hs E Hx Hb) as (x & Ex & EL & ER).
  apply file_blank_iff in HB. rewrite HB in ER. exists x. split; [exact Ex|]. intros fs p Efs. rewrite (EL fs p Efs). exact ER.
Qed.
