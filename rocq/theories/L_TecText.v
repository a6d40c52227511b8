(** The texts of the log: buffer limits, and where the zones go. *)

From Coq Require Import ZArith Ascii String List Bool Lia.
From Verif Require Import Base M_Bytes M_TecZone M_TecFile Spec_Loop Spec_Tec Spec_Plt
  L_Base L_TecZone L_TecMin L_Plt L_Text L_TecWrite L_TecFile.
Import ListNotations.
Open Scope list_scope.
Open Scope Z_scope.

(** ** Pieces *)

Definition piece_ok (p : piece) : Prop := match p with Lit _ => True | Buf s => Z.of_nat (String.length s) < 200 end.
Definition piece_text (p : piece) : string := match p with Lit s | Buf s => s end.
Fixpoint line_text (l : list piece) : string :=
  match l with [] => ""%string | p :: l' => (piece_text p ++ line_text l')%string end.

Lemma emit_line_cases l :
  (Forall piece_ok l /\ emit_line l = Ok (line_text l)) \/ (~ Forall piece_ok l /\ emit_line l = UB).
Proof.
  induction l as [|p l IH]; [left; split; [constructor|reflexivity]|]. cbn [emit_line line_text].
  assert (Hp : (piece_ok p /\ emit_piece p = Ok (piece_text p)) \/ (~ piece_ok p /\ emit_piece p = UB)).
  { destruct p as [s|s]; cbn; [left; auto|]. destruct (sprintf_cases 200 s) as [[H E]|[H E]]; [left|right]; split; try assumption; lia. }
  destruct Hp as [[Hp ->]|[Hp ->]]; cbn [rbind].
  - destruct IH as [[Hl ->]|[Hl ->]]; cbn [rbind]; [left|right]; split; auto.
    intros C. inversion C; contradiction.
  - right. split; [|reflexivity]. intros C. inversion C; contradiction.
Qed.
Lemma emit_cases L :
  (Forall (Forall piece_ok) L /\ emit L = Ok (map line_text L)) \/ (~ Forall (Forall piece_ok) L /\ emit L = UB).
Proof.
  induction L as [|l L IH]; [left; split; [constructor|reflexivity]|]. cbn [emit map].
  destruct (emit_line_cases l) as [[Hp ->]|[Hp ->]]; cbn [rbind].
  - destruct IH as [[Hl ->]|[Hl ->]]; cbn [rbind]; [left|right]; split; auto.
    intros C. inversion C; contradiction.
  - right. split; [|reflexivity]. intros C. inversion C; contradiction.
Qed.

Ltac gen_len x H := pose proof H; generalize dependent (String.length x); intros.
Ltac lens :=
  unfold piece_ok, len, digits in *; cbn [fst snd] in *; rewrite ?length_append in *;
  repeat match goal with
  | |- context [String.length (fmt_i ?z)] => gen_len (fmt_i z) (fmt_i_length z)
  | |- context [String.length (fmt_li ?z)] => gen_len (fmt_li z) (fmt_li_length z)
  | |- context [String.length (fmt_le ?z)] => gen_len (fmt_le z) (fmt_le_length z)
  end;
  cbn [String.length TAB Q] in *; try exact I; lia.

(** ** Auxiliary pairs *)

Lemma marked_map {A} (l : list A) : map fst (marked l) = l.
Proof.
  induction l as [|a l IH]; [reflexivity|]. cbn [marked]. destruct l as [|b l]; [reflexivity|].
  cbn [map fst]. rewrite IH. reflexivity.
Qed.

Lemma Forall_marked {A} (P : A -> Prop) (l : list A) : Forall (fun p => P (fst p)) (marked l) <-> Forall P l.
Proof. rewrite <- (Forall_map fst P), marked_map. reflexivity. Qed.

Lemma Forall_iff {A} (P Q : A -> Prop) l : (forall a, P a <-> Q a) -> (Forall P l <-> Forall Q l).
Proof. intros H. split; apply Forall_impl; intros a; apply H. Qed.

Lemma Forall_one {A} (P : A -> Prop) a : Forall P [a] <-> P a.
Proof. rewrite Forall_cons_iff. split; [tauto|auto]. Qed.

Lemma aux_json_ok a : Forall (Forall piece_ok) (aux_json a) <-> Forall (fun p => len (fst p) + len (snd p) + 9 < 200) a.
Proof.
  destruct a as [|q a]; [split; constructor|]. unfold aux_json. set (b := q :: a).
  rewrite !Forall_app, !Forall_one, Forall_map, <- (Forall_marked (fun p => len (fst p) + len (snd p) + 9 < 200) b).
  assert (Hl : forall s, piece_ok (Lit s) <-> True) by (intros; cbn; tauto). rewrite !Hl.
  assert (Hi : Forall (fun x => Forall piece_ok (let '(p, m) := x in
      Buf (TAB ++ TAB ++ Q ++ c_str (fst p) ++ Q ++ " : " ++ Q ++ c_str (snd p) ++ Q)%string :: (if m : bool then [Lit ","%string] else []))) (marked b)
    <-> Forall (fun p => len (fst (fst p)) + len (snd (fst p)) + 9 < 200) (marked b)).
  { apply Forall_iff. intros [p m]. rewrite Forall_cons_iff. cbn [fst].
    assert (Hm : Forall piece_ok (if m then [Lit ","%string] else []) <-> True) by (destruct m; split; auto; repeat constructor).
    rewrite Hm. split; [intros [H _]|intros H; split; [|exact I]]; lens. }
  rewrite Hi. tauto.
Qed.
Lemma aux_xml_ok a : Forall (Forall piece_ok) (aux_xml a) <-> Forall (fun p => 2 * len (fst p) + len (snd p) + 7 < 200) a.
Proof.
  destruct a as [|q a]; [split; constructor|]. unfold aux_xml. set (b := q :: a).
  rewrite !Forall_app, !Forall_one, Forall_map.
  assert (Hl : forall s, piece_ok (Lit s) <-> True) by (intros; cbn; tauto). rewrite !Hl.
  assert (Hi : Forall (fun p => Forall piece_ok
            [Buf (TAB ++ TAB ++ "<" ++ c_str (fst p) ++ ">" ++ c_str (snd p) ++ "</" ++ c_str (fst p) ++ ">")%string]) b
    <-> Forall (fun p => 2 * len (fst p) + len (snd p) + 7 < 200) b).
  { apply Forall_iff. intros p. rewrite Forall_one. split; intros H; lens. }
  rewrite Hi. tauto.
Qed.
Lemma short_pairs a : Forall short_pair a <->
  Forall (fun p => len (fst p) + len (snd p) + 9 < 200) a /\ Forall (fun p => 2 * len (fst p) + len (snd p) + 7 < 200) a.
Proof.
  unfold short_pair. induction a as [|p a IH]; [split; [split|]; constructor|]. rewrite !Forall_cons_iff, IH. tauto.
Qed.

(** ** Zones *)

Lemma data_lines_json (l : list data_log) :
  Forall (Forall piece_ok) (map (fun pm => let '(d, m) := pm in
         Buf (TAB ++ TAB ++ "{ " ++ Q ++ "type" ++ Q ++ ":" ++ fmt_i (dl_type d) ++ ", " ++
              Q ++ "size_i" ++ Q ++ ":" ++ fmt_i (sz2i (dl_size d)) ++ ", " ++
              Q ++ "file_pt" ++ Q ++ ":" ++ fmt_li (dl_pt d) ++ ", " ++
              Q ++ "min" ++ Q ++ ":" ++ fmt_le (dl_min d) ++ ", " ++
              Q ++ "max" ++ Q ++ ":" ++ fmt_le (dl_max d) ++ " }")%string
         :: (if m : bool then [Lit ","%string] else [])) (marked l)).
Proof.
  apply Forall_map, Forall_forall. intros [d m] _. constructor; [|destruct m; repeat constructor]. lens.
Qed.
Lemma data_lines_xml k (l : list data_log) :
  Forall (Forall piece_ok) (map (fun kd => let '(k, d) := kd in
         [Buf (TAB ++ TAB ++ "<Data_" ++ fmt_i (sz2i (Z.of_nat k)) ++ " type=" ++ Q ++ fmt_i (dl_type d) ++ Q ++
               " size_i=" ++ Q ++ fmt_i (sz2i (dl_size d)) ++ Q ++ " file_pt=" ++ Q ++ fmt_li (dl_pt d) ++ Q ++
               " min=" ++ Q ++ fmt_le (dl_min d) ++ Q ++ " max=" ++ Q ++ fmt_le (dl_max d) ++ Q ++ "/>")%string])
         (numbered k l)).
Proof.
  apply Forall_map, Forall_forall. intros [k' d] _. constructor; [|constructor]. lens.
Qed.

Ltac pieces := repeat (rewrite Forall_app || rewrite Forall_cons_iff).

Lemma emit_ok L (P : Prop) : (Forall (Forall piece_ok) L <-> P) ->
  (P /\ emit L = Ok (map line_text L)) \/ (~ P /\ emit L = UB).
Proof. intros H. destruct (emit_cases L) as [[A B]|[A B]]; [left|right]; tauto. Qed.

Lemma zone_json_cases l :
  let P := len (z_name (zl_zone l)) + 18 < 200 /\ Forall (fun p => len (fst p) + len (snd p) + 9 < 200) (z_aux (zl_zone l)) in
  (P /\ exists t, zone_json l = Ok t) \/ (~ P /\ zone_json l = UB).
Proof.
  cbv zeta. unfold zone_json. cbv zeta.
  match goal with |- context [emit ?L] => pose proof (emit_ok L
    (len (z_name (zl_zone l)) + 18 < 200 /\ Forall (fun p => len (fst p) + len (snd p) + 9 < 200) (z_aux (zl_zone l)))) as H end.
  destruct H as [[A ->]|[A ->]]; [|eauto|eauto].
  pieces. rewrite aux_json_ok.
  split.
  - intros H. decompose [and] H. split; [lens|assumption].
  - intros [H1 H2]. repeat match goal with |- _ /\ _ => split end; try assumption; try apply data_lines_json;
      try match goal with |- Forall _ (if ?b then _ else _) => destruct b; [apply Forall_nil|apply Forall_one, Forall_one] | |- Forall _ [] => apply Forall_nil end;
      try match goal with |- Forall _ _ => unfold json3, xml3; apply Forall_one end; lens.
Qed.
Lemma zone_xml_cases l :
  let P := len (z_name (zl_zone l)) + 22 < 200 /\ Forall (fun p => 2 * len (fst p) + len (snd p) + 7 < 200) (z_aux (zl_zone l)) in
  (P /\ exists t, zone_xml l = Ok t) \/ (~ P /\ zone_xml l = UB).
Proof.
  cbv zeta. unfold zone_xml. cbv zeta.
  match goal with |- context [emit ?L] => pose proof (emit_ok L
    (len (z_name (zl_zone l)) + 22 < 200 /\ Forall (fun p => 2 * len (fst p) + len (snd p) + 7 < 200) (z_aux (zl_zone l)))) as H end.
  destruct H as [[A ->]|[A ->]]; [|eauto|eauto].
  pieces. rewrite aux_xml_ok.
  split.
  - intros H. decompose [and] H. split; [lens|assumption].
  - intros [H1 H2]. repeat match goal with |- _ /\ _ => split end; try assumption; try apply data_lines_xml;
      try match goal with |- Forall _ (if ?b then _ else _) => destruct b; [apply Forall_nil|apply Forall_one, Forall_one] | |- Forall _ [] => apply Forall_nil end;
      try match goal with |- Forall _ _ => unfold json3, xml3; apply Forall_one end; lens.
Qed.

Lemma gen_zone_cases l :
  let P := len (z_name (zl_zone l)) + 22 < 200 /\ Forall short_pair (z_aux (zl_zone l)) in
  (P /\ exists j x, gen_zone l = Ok (zl_set_text j x l)) \/ (~ P /\ gen_zone l = UB).
Proof.
  cbv zeta. rewrite short_pairs. unfold gen_zone.
  destruct (zone_json_cases l) as [[A [t ->]]|[A ->]]; cbn [rbind].
  - destruct (zone_xml_cases l) as [[B [u ->]]|[B ->]]; cbn [rbind]; [left|right]; cbv zeta in *.
    + split; [tauto|eauto].
    + split; [tauto|reflexivity].
  - right. cbv zeta in A. split; [|reflexivity]. intros [C D]. apply A. split; [lia|tauto].
Qed.

(** ** Files *)

(** Lines kept for zones in a generated text. *)
Definition lcount (L : list (list piece)) : nat := zcount (map line_text L).
Lemma lcount_app a b : lcount (a ++ b) = (lcount a + lcount b)%nat.
Proof. unfold lcount. rewrite map_app. apply zcount_app. Qed.
Lemma lcount_cons x b : line_text x <> ZONE_LINE -> lcount (x :: b) = lcount b.
Proof. intros H. unfold lcount, zcount. cbn. destruct (string_dec _ _); [contradiction|reflexivity]. Qed.
Lemma lcount_map {A} (f : A -> list piece) l : (forall a, line_text (f a) <> ZONE_LINE) -> lcount (map f l) = O.
Proof. intros H. induction l as [|a l IH]; [reflexivity|]. cbn [map]. rewrite lcount_cons by apply H. exact IH. Qed.
Ltac nz := intros; cbn; discriminate.

Lemma aux_json_count a : lcount (aux_json a) = O.
Proof.
  destruct a as [|q a]; [reflexivity|]. unfold aux_json. rewrite !lcount_app.
  rewrite lcount_map by (intros [p m]; nz). rewrite !lcount_cons by nz. reflexivity.
Qed.
Lemma aux_xml_count a : lcount (aux_xml a) = O.
Proof.
  destruct a as [|q a]; [reflexivity|]. unfold aux_xml. rewrite !lcount_app.
  rewrite lcount_map by nz. rewrite !lcount_cons by nz. reflexivity.
Qed.

(** The longest text of each kind fits. *)
Definition json_fits (l : file_log) : Prop :=
  let f := fl_file l in
  len (f_name f ++ ".plt") + 18 < 200 /\ len (f_path f) + 18 < 200 /\ len (fl_begin l) + 14 < 200 /\
  Z.of_nat (String.length (fmt_lf 5 (fl_using l))) + 17 < 200 /\ len (f_title f) + 15 < 200 /\
  Forall (fun v => len v + 2 < 200) (f_vars f) /\ Forall (fun p => len (fst p) + len (snd p) + 9 < 200) (f_aux f).
Definition xml_fits (l : file_log) : Prop :=
  let f := fl_file l in
  len (f_name f ++ ".plt") + 22 < 200 /\ len (f_path f) + 22 < 200 /\ len (fl_begin l) + 14 < 200 /\
  Z.of_nat (String.length (fmt_lf 5 (fl_using l))) + 24 < 200 /\ len (f_title f) + 16 < 200 /\
  Forall (fun kv => len (snd kv) + digits (sz2i (Z.of_nat (fst kv))) + 9 < 200) (numbered 0 (f_vars f)) /\
  Forall (fun p => 2 * len (fst p) + len (snd p) + 7 < 200) (f_aux f).

Lemma len_plt s : len s <= len (s ++ ".plt").
Proof.
  unfold len. induction s as [|c s IH]; cbn [c_str String.append]; [cbn; lia|].
  destruct (b2z c =? 0); cbn [String.length]; lia.
Qed.

Lemma file_json_cases l :
  (json_fits l /\ exists t, file_json l = Ok t /\ zcount t = length (fl_zones l)) \/ (~ json_fits l /\ file_json l = UB).
Proof.
  unfold file_json. cbv zeta.
  match goal with |- context [emit ?L] => assert (Hc : lcount L = length (fl_zones l)); [|pose proof (emit_ok L (json_fits l)) as H] end.
  { rewrite !lcount_app, aux_json_count, !lcount_cons by nz.
    assert (Hz : forall zs : list zone_log, lcount (flat_map (fun zm => [Lit ZONE_LINE] :: (if (snd zm) : bool then [ [Lit (TAB ++ TAB ++ ",")] ] else [])) (marked zs)) = length zs).
    { induction zs as [|z zs IH]; [reflexivity|]. cbn [marked]. destruct zs as [|z' zs]; [reflexivity|].
      cbn [flat_map snd]. rewrite lcount_app, IH. reflexivity. }
    rewrite Hz. cbn. lia. }
  destruct H as [[A ->]|[A ->]]; [|left; eauto|right; eauto].
  unfold json_fits. pieces. rewrite aux_json_ok, Forall_flat_map.
  assert (Hv : Forall (fun vm : string * bool => Forall piece_ok (let '(v, m) := vm in Buf (Q ++ c_str v ++ Q) :: (if m then [Lit ", "] else []))) (marked (f_vars (fl_file l)))
    <-> Forall (fun v => len v + 2 < 200) (f_vars (fl_file l))).
  { rewrite <- (Forall_marked (fun v => len v + 2 < 200)). apply Forall_iff. intros [v m]. cbn [fst].
    assert (Hm : Forall piece_ok (if m then [Lit ", "%string] else []) <-> True) by (destruct m; split; auto; repeat constructor).
    rewrite Forall_cons_iff, Hm. split; [intros [H _]|intros H; split; [|exact I]]; lens. }
  rewrite Hv.
  split.
  - intros H. decompose [and] H. conjs; try assumption; lens.
  - intros (H1 & H2 & H3 & H4 & H5 & H6 & H7). conjs; try assumption;
      try match goal with |- Forall _ [] => apply Forall_nil end; try lens.
    apply Forall_flat_map, Forall_forall. intros [z m] _. constructor; [repeat constructor|]. cbn [snd]. destruct m; repeat constructor.
Qed.
Lemma file_xml_cases l :
  (xml_fits l /\ exists t, file_xml l = Ok t /\ zcount t = length (fl_zones l)) \/ (~ xml_fits l /\ file_xml l = UB).
Proof.
  unfold file_xml. cbv zeta.
  match goal with |- context [emit ?L] => assert (Hc : lcount L = length (fl_zones l)); [|pose proof (emit_ok L (xml_fits l)) as H] end.
  { rewrite !lcount_app, aux_xml_count, !lcount_cons by nz.
    assert (Hz : forall zs : list zone_log, lcount (map (fun _ => [Lit ZONE_LINE]) zs) = length zs).
    { induction zs as [|z zs IH]; [reflexivity|]. cbn [map].
      pose proof (lcount_app [[Lit ZONE_LINE]] (map (fun _ => [Lit ZONE_LINE]) zs)) as E. cbn [app] in E. rewrite E, IH. reflexivity. }
    rewrite Hz. cbn. lia. }
  destruct H as [[A ->]|[A ->]]; [|left; eauto|right; eauto].
  unfold xml_fits. pieces. rewrite aux_xml_ok, (Forall_map _ piece_ok).
  assert (Hv : Forall (fun kv : nat * string => piece_ok (let '(k, v) := kv in Buf (" <" ++ c_str v ++ " i=" ++ Q ++ fmt_i (sz2i (Z.of_nat k)) ++ Q ++ "/>"))) (numbered 0 (f_vars (fl_file l)))
    <-> Forall (fun kv => len (snd kv) + digits (sz2i (Z.of_nat (fst kv))) + 9 < 200) (numbered 0 (f_vars (fl_file l)))).
  { apply Forall_iff. intros [k v]. unfold piece_ok, len, digits. rewrite !length_append. cbn [fst snd String.length Q]. lia. }
  rewrite Hv. pose proof (len_plt (f_name (fl_file l))) as Hn.
  split.
  - intros H. decompose [and] H. conjs; try assumption; lens.
  - intros (H1 & H2 & H3 & H4 & H5 & H6 & H7). conjs; try assumption;
      try match goal with |- Forall _ [] => apply Forall_nil end; try lens.
    apply Forall_map, Forall_forall. intros z _. repeat constructor.
Qed.

(** The zone logs before and after the texts are made. *)
Definition textless (g : zone_log) : zone_log := zl_set_text [] [] g.

Lemma gen_zones_cases gs :
  let P := Forall (fun g => len (z_name (zl_zone g)) + 22 < 200 /\ Forall short_pair (z_aux (zl_zone g))) gs in
  (P /\ exists gs', map_res gen_zone gs = Ok gs' /\ map textless gs' = map textless gs) \/ (~ P /\ map_res gen_zone gs = UB).
Proof.
  cbv zeta. induction gs as [|g gs IH]; [left; split; [constructor|exists []; auto]|]. cbn [map_res].
  rewrite Forall_cons_iff.
  destruct (gen_zone_cases g) as [[A (j & x & ->)]|[A ->]]; cbv zeta in A; cbn [rbind]; [|right; tauto].
  destruct IH as [[B (gs' & -> & E)]|[B ->]]; cbn [rbind]; [left|right; tauto].
  split; [tauto|]. eexists. split; [reflexivity|]. cbn [map]. rewrite E. destruct g. reflexivity.
Qed.

Definition texts_fit (l : file_log) : Prop :=
  xml_fits l /\ Forall short_pair (f_aux (fl_file l)) /\
  Forall (fun g => len (z_name (zl_zone g)) + 22 < 200 /\ Forall short_pair (z_aux (zl_zone g))) (fl_zones l).

Lemma numbered_vars (l : list string) : forall k,
  Forall (fun kv => len (snd kv) + digits (sz2i (Z.of_nat (fst kv))) + 9 < 200) (numbered k l) -> Forall (fun v => len v + 2 < 200) l.
Proof.
  induction l as [|v l IH]; intros k H; [constructor|]. cbn [numbered] in H. inversion H as [|? ? H1 H2]; subst.
  constructor; [cbn in H1; unfold digits in H1; lia|]. eapply IH. eassumption.
Qed.

Lemma gen_texts_cases l :
  (texts_fit l /\ exists j x gs, gen_texts l = Ok (fl_set_text (fl_json l ++ j) (fl_xml l ++ x) (fl_set_zones gs l)) /\
     map textless gs = map textless (fl_zones l) /\
     zcount j = length (fl_zones l) /\ zcount x = length (fl_zones l)) \/
  (~ texts_fit l /\ gen_texts l = UB).
Proof.
  unfold gen_texts, texts_fit. rewrite short_pairs.
  destruct (gen_zones_cases (fl_zones l)) as [[A (gs & -> & E)]|[A ->]]; cbv zeta in A; cbn [rbind]; [|right; tauto].
  destruct (file_json_cases l) as [[B (j & -> & Ej)]|[B ->]]; cbn [rbind].
  - destruct (file_xml_cases l) as [[C (x & -> & Ex)]|[C ->]]; cbn [rbind]; [left|right; tauto].
    unfold json_fits, xml_fits in *. split; [tauto|]. exists j, x, gs. auto.
  - right. split; [|reflexivity]. unfold json_fits, xml_fits in *. cbv zeta in *. intros (H & (H1 & H2) & H3). apply B.
    decompose [and] H. conjs; try assumption; try lia. eapply numbered_vars. eassumption.
Qed.
