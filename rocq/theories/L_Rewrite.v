(** Lemmas for C69: logs read and written again. *)

From Coq Require Import ZArith Ascii String List Bool Lia Sorted.
From Verif Require Import Base M_Bytes M_TecZone M_TecFile Spec_Loop Spec_Tec Spec_Plt Spec_Aux Spec_Xml Spec_Doc L_Base L_Loop L_TecZone L_TecMin L_Text L_Plt
  L_TecWrite L_TecFile L_TecText L_TecWhole L_TecProp L_Aux L_ReadLog
  M_Scan M_Xml M_ReadXml L_Scan L_ScanF L_Near L_Xml L_XmlSeq L_XmlText L_XmlLog L_Doc L_Settle Spec_Settle.
Import ListNotations.
Open Scope string_scope.
Open Scope list_scope.
Open Scope Z_scope.

(** ** Logs which print alike *)

Definition alike_data (d d' : data_log) : Prop :=
  dl_type d' = dl_type d /\ dl_size d' = dl_size d /\ dl_pt d' = dl_pt d /\
  fmt_le (dl_min d') = fmt_le (dl_min d) /\ fmt_le (dl_max d') = fmt_le (dl_max d).
Definition alike_zone (g g' : zone_log) : Prop :=
  let z := zl_zone g in let z' := zl_zone g' in let r := zl_real g in let r' := zl_real g' in
  z_name z' = z_name z /\ z_strand z' = z_strand z /\ (z_strand z <> -1 -> fmt_le (z_time z') = fmt_le (z_time z)) /\
  z_max z' = z_max z /\ z_skip z' = z_skip z /\ z_begin z' = z_begin z /\ z_end z' = z_end z /\ z_aux z' = z_aux z /\
  r_dim r' = r_dim r /\ r_rdim r' = r_rdim r /\ r_max r' = r_max r /\ Forall2 alike_data (zl_data g) (zl_data g').
Definition alike (g g' : file_log) : Prop :=
  let f := fl_file g in let f' := fl_file g' in
  f_path f' = f_path f /\ f_name f' = f_name f /\ f_title f' = f_title f /\ f_vars f' = f_vars f /\ f_type f' = f_type f /\ f_aux f' = f_aux f /\
  fl_begin g' = fl_begin g /\ fmt_lf 5 (fl_using g') = fmt_lf 5 (fl_using g) /\ Forall2 alike_zone (fl_zones g) (fl_zones g').

Lemma numbered_map {A B} (R : A -> A -> Prop) (f : nat * A -> B) : (forall k a a', R a a' -> f (k, a') = f (k, a)) ->
  forall l l', Forall2 R l l' -> forall k, map f (numbered k l') = map f (numbered k l).
Proof.
  intros Hf. induction 1 as [|a a' l l' H _ IH]; intros k; [reflexivity|]. cbn [numbered map]. now rewrite (Hf _ _ _ H), IH.
Qed.
Lemma marked_map {A B} (R : A -> A -> Prop) (f : A * bool -> B) : (forall m a a', R a a' -> f (a', m) = f (a, m)) ->
  forall l l', Forall2 R l l' -> map f (marked l') = map f (marked l).
Proof.
  intros Hf. induction 1 as [|a a' l l' H H2 IH]; [reflexivity|]. destruct H2 as [|b b' l l' H2 H3]; cbn [marked map] in *; [now rewrite (Hf _ _ _ H)|].
  now rewrite (Hf _ _ _ H), IH.
Qed.

Lemma alike_zone_xml g g' : alike_zone g g' -> zone_xml g' = zone_xml g.
Proof.
  intros (E1 & E2 & E3 & E4 & E5 & E6 & E7 & E8 & E9 & E10 & E11 & ED). unfold zone_xml. rewrite E1, E2, E4, E5, E6, E7, E8, E9, E10, E11. cbv zeta.
  match goal with |- context [map ?F (numbered 0 (zl_data g'))] => rewrite (numbered_map alike_data F) with (l := zl_data g) end; cycle 1.
  - intros k d d' (D1 & D2 & D3 & D4 & D5). now rewrite D1, D2, D3, D4, D5.
  - exact ED.
  - destruct (Z.eqb_spec (z_strand (zl_zone g)) (-1)) as [E|E]; [reflexivity|]. now rewrite (E3 E).
Qed.
Lemma alike_zone_json g g' : alike_zone g g' -> zone_json g' = zone_json g.
Proof.
  intros (E1 & E2 & E3 & E4 & E5 & E6 & E7 & E8 & E9 & E10 & E11 & ED). unfold zone_json. rewrite E1, E2, E4, E5, E6, E7, E8, E9, E10, E11. cbv zeta.
  match goal with |- context [map ?F (marked (zl_data g'))] => rewrite (marked_map alike_data F) with (l := zl_data g) end; cycle 1.
  - intros k d d' (D1 & D2 & D3 & D4 & D5). now rewrite D1, D2, D3, D4, D5.
  - exact ED.
  - destruct (Z.eqb_spec (z_strand (zl_zone g)) (-1)) as [E|E]; [reflexivity|]. now rewrite (E3 E).
Qed.
Lemma alike_zone_node g g' : alike_zone g g' -> zone_node g' = zone_node g.
Proof.
  intros (E1 & E2 & E3 & E4 & E5 & E6 & E7 & E8 & E9 & E10 & E11 & ED). unfold zone_node, zone_kids. rewrite E1, E2, E4, E5, E6, E7, E8, E9, E10, E11. cbv zeta.
  rewrite (numbered_map alike_data data_node) with (l := zl_data g); cycle 1.
  - intros k d d' (D1 & D2 & D3 & D4 & D5). unfold data_node, data_attrs. cbn [fst snd]. now rewrite D1, D2, D3, D4, D5.
  - exact ED.
  - destruct (Z.eqb_spec (z_strand (zl_zone g)) (-1)) as [E|E]; [reflexivity|]. now rewrite (E3 E).
Qed.
Lemma zones_map {B} (f : zone_log -> B) : (forall g g', alike_zone g g' -> f g' = f g) ->
  forall l l', Forall2 alike_zone l l' -> map f l' = map f l.
Proof. intros Hf. induction 1 as [|g g' l l' H _ IH]; [reflexivity|]. cbn [map]. now rewrite (Hf _ _ H), IH. Qed.

Lemma alike_xml g g' : alike g g' -> file_xml g' = file_xml g.
Proof.
  intros (E1 & E2 & E3 & E4 & E5 & E6 & E7 & E8 & EZ). unfold file_xml. rewrite E1, E2, E3, E4, E5, E6, E7, E8. cbv zeta.
  now rewrite (zones_map (fun _ => [Lit ZONE_LINE]) (fun _ _ _ => eq_refl) _ _ EZ).
Qed.
Lemma marked_flat {A B} (f : bool -> list B) (l l' : list A) : length l' = length l ->
  flat_map (fun x => f (snd x)) (marked l') = flat_map (fun x => f (snd x)) (marked l).
Proof.
  revert l'. induction l as [|a l IH]; intros [|a' l'] H; try discriminate; [reflexivity|]. injection H as H.
  destruct l as [|b l]; destruct l' as [|b' l']; try discriminate; [reflexivity|].
  change (f true ++ flat_map (fun x => f (snd x)) (marked (b' :: l')) = f true ++ flat_map (fun x => f (snd x)) (marked (b :: l))). f_equal. apply IH. exact H.
Qed.
Lemma alike_json g g' : alike g g' -> file_json g' = file_json g.
Proof.
  intros (E1 & E2 & E3 & E4 & E5 & E6 & E7 & E8 & EZ). unfold file_json. rewrite E1, E2, E3, E4, E5, E6, E7, E8. cbv zeta.
  rewrite (marked_flat (fun m : bool => [Lit ZONE_LINE] :: (if m then [[Lit (TAB ++ TAB ++ ",")]] else [])) (fl_zones g) (fl_zones g')); [reflexivity|].
  symmetry. exact (Forall2_len _ _ _ EZ).
Qed.
Lemma alike_node g g' : alike g g' -> file_node g' = file_node g.
Proof.
  intros (E1 & E2 & E3 & E4 & E5 & E6 & E7 & E8 & EZ). unfold file_node, file_kids. rewrite E1, E2, E3, E4, E5, E6, E7, E8. cbv zeta.
  now rewrite (zones_map zone_node alike_zone_node _ _ EZ).
Qed.

(** ** Logs with the texts generated for them *)

Definition texted_zone (z : zone_log) : Prop := zone_xml z = Ok (zl_xml z) /\ zone_json z = Ok (zl_json z).
Definition texted (g : file_log) : Prop :=
  file_xml g = Ok (fl_xml g) /\ file_json g = Ok (fl_json g) /\ Forall texted_zone (fl_zones g).
Definition untexted (l : file_log) : Prop :=
  fl_xml l = [] /\ fl_json l = [] /\ Forall (fun z => zl_xml z = [] /\ zl_json z = []) (fl_zones l).

Lemma gen_zone_texted z z' : gen_zone z = Ok z' -> zl_xml z = [] -> zl_json z = [] -> texted_zone z'.
Proof.
  unfold gen_zone. intros E Hx Hj. destruct (zone_json z) as [j|x|] eqn:Ej; try discriminate. cbn [rbind] in E.
  destruct (zone_xml z) as [t|x|] eqn:Et; try discriminate. cbn [rbind] in E. injection E as <-. rewrite Hx, Hj.
  destruct z as [z r ds sz ec js xm]. split; [exact Et|exact Ej].
Qed.
Lemma gen_texted l g : gen_texts l = Ok g -> untexted l -> texted g.
Proof.
  intros E (Hx & Hj & HZ). assert (HZ' : Forall (fun z => zl_xml z = []) (fl_zones l)) by (eapply Forall_impl; [|exact HZ]; cbv beta; tauto).
  destruct (gen_texts_text _ _ E Hx HZ') as (T1 & _ & T3 & T4 & T5 & T6). split; [exact T1|]. clear T1 HZ'.
  unfold gen_texts in E. destruct (map_res gen_zone (fl_zones l)) as [zs|x|] eqn:Ez; try discriminate. cbn [rbind] in E.
  destruct (file_json l) as [j|x|] eqn:Ej; try discriminate. cbn [rbind] in E.
  destruct (file_xml l) as [t|x|]; try discriminate. cbn [rbind] in E. injection E as <-. rewrite Hj.
  cbn [fl_set_text fl_set_zones fl_json fl_zones fl_file fl_begin fl_using app] in *. split.
  - rewrite <- Ej. unfold file_json. cbv zeta. cbn [fl_set_text fl_set_zones fl_json fl_zones fl_file fl_begin fl_using].
    rewrite (marked_flat (fun m : bool => [Lit ZONE_LINE] :: (if m then [[Lit (TAB ++ TAB ++ ",")]] else [])) (fl_zones l) zs); [reflexivity|].
    symmetry. exact (Forall2_len _ _ _ T3).
  - clear - Ez HZ. revert zs Ez. induction (fl_zones l) as [|z zz IH]; intros zs E; cbn [map_res] in E; [injection E as <-; constructor|].
    destruct (gen_zone z) as [z'|x|] eqn:Ez; try discriminate. cbn [rbind] in E.
    destruct (map_res gen_zone zz) as [r|x|] eqn:Er; try discriminate. cbn [rbind] in E. injection E as <-. inversion_clear HZ as [|? ? [H1 H2] H3].
    constructor; [eapply gen_zone_texted; eassumption|now apply IH].
Qed.
Lemma core_untexted n l : core n = Ok l -> untexted l.
Proof.
  intros H. destruct (core_says _ _ H) as (_ & H1 & H2 & _). split; [exact H2|]. split; [exact H1|]. clear H1 H2. revert H. unfold core. intros H.
  do 6 (apply bind_ok in H; destruct H as (? & _ & H)). apply bind_ok in H. destruct H as (vs & _ & H). cbv zeta in H.
  do 2 (apply bind_ok in H; destruct H as (? & _ & H)). apply bind_ok in H. destruct H as (zones & E & [= <-]). cbn [fl_zones]. revert zones E. generalize (elems x6). clear.
  induction l as [|c l IH]; intros m H; cbn [map_res] in H; [injection H as <-; constructor|].
  apply bind_ok in H. destruct H as (z & H1 & H). apply bind_ok in H. destruct H as (r & H2 & [= <-]). constructor; [|now apply IH]. apply read_zone_says in H1. tauto.
Qed.
Lemma read_texted n g : read_xml n = Ok g -> texted g.
Proof. intros R. apply read_ok in R. destruct R as (l & E & Eg & _). eapply gen_texted; [exact Eg|eapply core_untexted; exact E]. Qed.

Lemma Forall2_impl' {A B} (R S : A -> B -> Prop) l m : (forall a b, R a b -> S a b) -> Forall2 R l m -> Forall2 S l m.
Proof. intros H. induction 1; constructor; auto. Qed.
Lemma text_out_same zd d zt zs zs' : Forall2 (fun z z' => zt z' = zt z) zs zs' -> forall t,
  file_text_out zd d zt zs' t = file_text_out zd d zt zs t.
Proof.
  intros H t. revert zs zs' H. induction t as [|s t IH]; intros zs zs' H; [reflexivity|]. cbn [file_text_out]. destruct (String.eqb s ZONE_LINE).
  - destruct H as [|z z' zs zs' H1 H2]; [reflexivity|]. rewrite H1, (IH _ _ H2). reflexivity.
  - rewrite (IH _ _ H). reflexivity.
Qed.
Lemma texted_same g g' : texted g -> texted g' -> alike g g' -> forall depth, xml_file g' depth = xml_file g depth /\ write_json g' depth = write_json g depth.
Proof.
  intros (T1 & T2 & T3) (U1 & U2 & U3) A depth. rewrite (alike_xml _ _ A) in U1. rewrite (alike_json _ _ A) in U2.
  assert (X : fl_xml g' = fl_xml g) by congruence. assert (J : fl_json g' = fl_json g) by congruence.
  assert (Z : Forall2 (fun z z' => zl_xml z' = zl_xml z /\ zl_json z' = zl_json z) (fl_zones g) (fl_zones g')).
  { destruct A as (_ & _ & _ & _ & _ & _ & _ & _ & AZ). clear - T3 U3 AZ. induction AZ as [|z z' zs zs' H _ IH]; [constructor|].
    inversion_clear T3 as [|? ? [A1 A2] A3]. inversion_clear U3 as [|? ? [B1 B2] B3]. constructor; [|now apply IH].
    rewrite (alike_zone_xml _ _ H) in B1. rewrite (alike_zone_json _ _ H) in B2. split; congruence. }
  unfold xml_file, write_xml, write_json. rewrite X, J. rewrite !(text_out_same _ _ _ (fl_zones g) (fl_zones g')); [split; reflexivity| |];
    (eapply Forall2_impl'; [|exact Z]; cbv beta; tauto).
Qed.

(** ** What is read from the text of a log *)

Lemma need_txt n name m s c t : need n name = Ok (txt m s) -> first_kid n name c -> holds_text c t -> t = s.
Proof.
  intros E F H. apply need_ok in F. assert (c = txt m s) by congruence. subst c. destruct H as (b & l & H). unfold txt in H. cbn [kids] in H.
  destruct (blank s); [discriminate H|]. now injection H as <- <- <-.
Qed.
Lemma double_txt_at n name m s x : need n name = Ok (txt m s) -> double_at n name x -> scan_double s = Some x.
Proof. intros E (t & (c & F & H) & S). now rewrite <- (need_txt _ _ _ _ _ _ E F H). Qed.

Lemma data_alike p d' : same_data (snd p) d' -> data_says (data_node p) d' -> alike_data (snd p) d'.
Proof.
  destruct p as [k d]. cbn [snd]. intros (S1 & S2 & S3 & _) (_ & _ & _ & (tn & A1 & E1) & (tx & A2 & E2)). apply attr_ok in A1, A2.
  assert (tn = fmt_le (dl_min d)) by (symmetry; exact (f_equal (fun o => match o with Some x => x | None => tn end) A1)). subst tn.
  assert (tx = fmt_le (dl_max d)) by (symmetry; exact (f_equal (fun o => match o with Some x => x | None => tx end) A2)). subst tx.
  repeat (split; [assumption|]). split; [exact (le_again _ _ E1)|exact (le_again _ _ E2)].
Qed.
Lemma zone_alike g g' : same_zone g g' -> zone_says (zone_node g) g' -> alike_zone g g'.
Proof.
  intros (S1 & S2 & S3 & S4 & S5 & S6 & S7 & S8 & S9 & S10 & S11 & SD) (_ & _ & A3 & _ & _ & _ & _ & _ & _ & _ & _ & c & FD & AD).
  pose proof (zone_children g) as C. cbv zeta in C. destruct C as (_ & _ & C3 & _ & _ & _ & _ & _ & _ & _ & _ & C12).
  do 2 (split; [assumption|]). split.
  - intros N. rewrite S2 in A3. apply le_again. eapply double_txt_at; [apply C3, Z.eqb_neq, N|apply A3, N].
  - do 8 (split; [assumption|]). apply need_ok in FD. rewrite C12 in FD. injection FD as <-. unfold elems in AD. cbn [kids] in AD. rewrite all_elems in AD by reflexivity.
    clear - SD AD. revert AD. generalize 0%nat. induction SD as [|d d' l l' H _ IH]; intros k AD; [constructor|]. cbn [numbered map] in AD. inversion_clear AD as [|? ? ? ? A1 A2].
    constructor; [exact (data_alike (k, d) d' H A1)|exact (IH _ A2)].
Qed.
Lemma log_alike g g' : millennium (fl_using g) -> same_log g g' -> file_says (file_node g) g' -> alike g g'.
Proof.
  intros HM (S1 & S2 & S3 & S4 & S5 & S6 & S7 & S8 & SZ) (_ & _ & _ & (c & F & U) & _ & _ & _ & _ & zs & FZ & AZ).
  pose proof (file_children g) as C. cbv zeta in C. destruct C as (_ & _ & _ & C4 & _ & _ & _ & _ & C9).
  do 7 (split; [assumption|]). split.
  - apply lf_again; [exact HM|]. destruct U as [(t & H & E)|[H _]].
    + now rewrite <- (need_txt _ _ _ _ _ _ C4 F H).
    + apply need_ok in F. rewrite C4 in F. injection F as <-. destruct (scan_lf 5 (fl_using g) ltac:(lia)) as (y & Ey & _).
      rewrite (H (fmt_lf 5 (fl_using g))) in Ey; [discriminate|]. apply get_text_holds. rewrite get_txt, num_blank by apply num_lf. reflexivity.
  - apply need_ok in FZ. rewrite C9 in FZ. injection FZ as <-. unfold elems in AZ. cbn [kids] in AZ. rewrite all_elems in AZ by reflexivity.
    clear - SZ AZ. induction SZ as [|z z' l l' H _ IH]; [constructor|]. cbn [map] in AZ. inversion_clear AZ as [|? ? ? ? A1 A2].
    constructor; [exact (zone_alike _ _ H A1)|exact (IH A2)].
Qed.

(** ** One round *)

Definition fine (g : file_log) : Prop :=
  texted g /\ in_int (f_type (fl_file g)) /\ Forall zone_ints (fl_zones g) /\ log_short g /\ xml_safe (described g) /\ plain_text (fl_begin g) /\
  millennium (fl_using g).
Lemma round g : fine g -> exists h, read_xml (file_node g) = Ok h /\ same_log g h /\
  forall depth, exists t, xml_file g depth = Ok t /\ forall fs p, fs (c_str p) = Some (list_ascii_of_string t) -> read_log fs p = Ok h.
Proof.
  intros ((ET & _ & EZ') & I1 & HI & SH & Hx & Hb & Hu).
  assert (EZ : Forall (fun z => zone_xml z = Ok (zl_xml z)) (fl_zones g)) by (eapply Forall_impl; [|exact EZ']; intros z [H _]; exact H). clear EZ'.
  set (g1 := mkFL (described g) (fl_zones g) (fl_begin g) (fl_end g) (fl_using g) (fl_size g) "" [] [] (fl_xml g)).
  change (file_xml g1 = Ok (fl_xml g1)) in ET. change (Forall (fun z => zone_xml z = Ok (zl_xml z)) (fl_zones g1)) in EZ.
  change (xml_safe (fl_file g1)) in Hx. change (plain_text (fl_begin g1)) in Hb. change (Forall zone_ints (fl_zones g1)) in HI. change (in_int (f_type (fl_file g1))) in I1.
  pose proof (read_file g1 I1 (proj1 Hx) eq_refl HI) as ER. rewrite (safe_blank _ _ Hx Hb) in ER. destruct ER as (y & gs' & Ny & Hgs & ER). cbv zeta in ER.
  match type of ER with _ = gen_texts ?l => set (l' := l) in * end.
  assert (TF : texts_fit l').
  { apply fit_short. destruct SH as (A1 & A2 & A3 & A4 & A5 & A6 & A7 & A8). unfold log_short. cbv zeta. subst l'.
    cbn [fl_file fl_begin fl_using fl_zones f_name f_path f_title f_vars f_aux]. do 4 (split; [assumption|]). split; [|split; [assumption|split; [assumption|]]].
    - apply (using_again (mkEnv true (fun _ _ => false) (fl_begin g) "" (fl_using g))); [|exact Ny]. split; [exact A4|]. intros v Hv. specialize (Hu v Hv).
      eapply Z.lt_le_trans; [exact Hu|]. apply Z.mul_le_mono_nonneg_r; [apply Z.pow_nonneg; lia|]. apply Z.pow_le_mono_r; lia.
    - change (fl_zones g1) with (fl_zones g) in Hgs. clear - A8 Hgs. induction Hgs as [|z z' zs zs' HZ H2 IH]; [constructor|]. inversion_clear A8 as [|? ? T4 T5].
      constructor; [|apply IH, T5]. destruct HZ as (-> & _ & _ & _ & _ & _ & _ & -> & _). exact T4. }
  destruct (gen_texts_cases l') as [(_ & j & xm & gs2 & Eg2 & Et2 & _)|[C _]]; [|contradiction].
  rewrite Eg2 in ER. change (file_node g1) with (file_node g) in ER. eexists. split; [exact ER|]. split.
  - unfold same_log. cbn [fl_set_text fl_set_zones fl_file fl_begin fl_using fl_zones l' f_path f_name f_title f_vars f_type f_aux].
    repeat (split; [first [reflexivity|exact Ny]|]). change (fl_zones g1) with (fl_zones g) in Hgs.
    cbn [l' fl_zones] in Et2. clear - Hgs Et2. revert gs2 Et2. induction Hgs as [|z z' zs zs' HZ H2 IH]; intros [|w ws] E; try discriminate; [constructor|].
    cbn [map] in E. injection E as E1 E2 E3 E4 E5 E6. constructor; [|apply IH, E6]. unfold same_zone in *. rewrite E1, E2, E3. exact HZ.
  - intros depth. destruct (file_loads g1 (fl_xml g1) depth ET eq_refl EZ (proj1 Hx) eq_refl (proj1 Hb)) as (x & Ex & NX & dn & Hdn & EL).
    change (xml_file g depth = Ok x) in Ex. exists x. split; [exact Ex|]. intros fs p Efs. unfold read_log, load_xml. rewrite Efs, string_of_list_ascii_of_string, EL.
    assert (EC : child (NElem "" [] [dn; file_node g1]) (c_str "File") = Some (file_node g1)).
    { unfold child, elems. cbn [kids filter]. rewrite Hdn. reflexivity. }
    rewrite EC. cbn [rbind]. exact ER.
Qed.

Theorem fine_settles g : fine g -> exists h, settles g h.
Proof.
  intros HF. destruct (round g HF) as (h & R & S & W). exists h.
  assert (A : alike g h) by (apply log_alike; [apply HF|exact S|apply says_in, R]).
  pose proof (texted_same g h (proj1 HF) (read_texted _ _ R) A) as T.
  split; [exact S|]. split; [|split].
  - intros d. destruct (W d) as (t & E & _). exists t. split; [exact E|]. destruct (T d) as [-> _]. exact E.
  - intros d. apply T.
  - assert (O : forall k, rewrite_once g k -> k = h).
    { intros k (d & t & fs & p & E & Hfs & Rd). destruct (W d) as (t' & E' & L). assert (t' = t) by congruence. subst t'. specialize (L fs p Hfs). congruence. }
    assert (O' : forall k, rewrite_once h k -> k = h).
    { intros k (d & t & fs & p & E & Hfs & Rd). apply O. exists d, t, fs, p. destruct (T d) as [<- _]. auto. }
    intros k. split.
    + induction 1 as [k H|k k' H IH H2]; [exact (O k H)|]. subst k. exact (O' k' H2).
    + intros ->. apply rewritten_once. destruct (W 0%nat) as (t & E & L). exists 0%nat, t, (fun _ => Some (list_ascii_of_string t)), "". split; [exact E|]. split; [reflexivity|].
      apply L. reflexivity.
Qed.

(** ** Which logs settle *)

Theorem written_settles e f s g u :
  file_wf f -> plt_size f < 2 ^ 63 -> write_plt e f = Ret (s, g) u -> calm e -> millennium (e_using e) -> xml_safe f -> plain_text (e_begin e) ->
  exists h, settles g h.
Proof.
  intros Hw Hs E Hc Hm Hx Hb. apply fine_settles.
  pose proof (written_ints e f s g u Hw Hs E) as HI. pose proof (write_spec e f Hw Hs) as H. rewrite E in H.
  destruct H as (Hr & _ & Hsh & _ & pvs & _ & _ & _ & Hzz & _ & Hf & Hbeg & _ & Hus & _ & _ & _ & _ & _ & gs & t & Eg & Hbare).
  assert (UT : untexted (mkFL (fl_file g) gs (fl_begin g) "" 0 0 "" [] [] [])).
  { split; [reflexivity|]. split; [reflexivity|]. cbn [fl_zones]. clear - Hbare. induction Hbare as [|z g' zs gs (_ & _ & H1 & H2) _ IH]; constructor; auto. }
  split; [apply (gen_texted _ _ Eg); exact UT|]. split; [rewrite Hf; apply Hw|]. split; [exact HI|]. split; [|split; [|split]].
  - apply fit_short. destruct (limits f e g Hw Hf Hbeg Hus) as [L _]; [congruence|]. apply L. split; assumption.
  - unfold described. rewrite Hzz, Hf. destruct f. exact Hx.
  - rewrite Hbeg. exact Hb.
  - rewrite Hus. exact Hm.
Qed.
Theorem read_settles n g : read_xml n = Ok g -> xml_safe (described g) -> plain_text (fl_begin g) -> millennium (fl_using g) ->
  Forall (fun z => Forall (fun d => dl_size d <= INT_MAX) (zl_data z)) (fl_zones g) -> exists h, settles g h.
Proof.
  intros R Hx Hb Hu Hd. apply fine_settles. pose proof (says_in _ _ R) as SAY. split; [exact (read_texted _ _ R)|]. split; [|split; [|split; [exact (moved_short _ _ R)|auto]]].
  - destruct SAY as (_ & _ & _ & _ & _ & (c & _ & [(t & _ & _ & H)|[_ ->]]) & _); [exact H|unfold in_int; lia].
  - destruct SAY as (_ & _ & _ & _ & _ & _ & _ & _ & c & _ & SZ). revert Hd. clear - SZ.
    induction SZ as [|x z l m H _ IH]; intros Hd; [constructor|]. inversion_clear Hd. constructor; [eapply says_ints; eassumption|now apply IH].
Qed.
