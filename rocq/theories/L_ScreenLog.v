(** What write_plt prints, and what write_echo writes, are the lines of Spec_Screen.v. *)

From Coq Require Import ZArith Ascii String List Bool Lia.
From Verif Require Import Base M_Bytes M_TecZone M_TecFile M_Screen Spec_Loop Spec_Tec Spec_Plt Spec_Screen
  L_Base L_TecZone L_TecMin L_Plt L_Text L_TecWrite L_TecFile L_TecText L_TecWhole L_TecProp L_XmlSeq L_XmlText L_JsonLog L_Screen.
Import ListNotations.
Open Scope list_scope.
Open Scope string_scope.
Open Scope Z_scope.

Lemma nul_free s : no_nul s -> nonul s.
Proof.
  intros H c Hc E. apply H. assert (c = ascii_of_nat 0) as <-; [|exact Hc].
  rewrite <- (ascii_nat_embedding c). f_equal. unfold b2z in E. clear - E.
  rewrite <- (Nat2Z.id (nat_of_ascii c)). unfold nat_of_ascii in *. lia.
Qed.

Lemma zline_eq i z : Z.of_nat i < INT_MAX -> nonul (z_name z) -> zline i z = line_of i z.
Proof.
  intros Hi Hn. unfold zline, line_of. rewrite c_str_id by exact Hn.
  replace (u2i (uwrap (Z.of_nat i + 1))) with (Z.of_nat i + 1); [reflexivity|].
  rewrite uwrap_small by (unfold in_uint; lia). rewrite u2i_small by lia. reflexivity.
Qed.
Lemma rdim_of z : zone_fits z -> r_rdim (real_of z) = not_one (samples_of z).
Proof.
  intros Hz. destruct (fits_ints z Hz) as [HI HB]. destruct (gather_size z HI) as [_ HG].
  destruct (HG HB) as (r & Er & _ & _ & H & _). unfold real_of. rewrite Er. exact H.
Qed.
Lemma lines_zone_eq cs gap vars z : zone_fits z -> map cs vars = vars -> lines_zone cs gap vars z (real_of z) (data_size z) = lines_in gap vars z.
Proof.
  intros Hz Hc. unfold lines_zone, elines, lines_in. rewrite Hc, (rdim_of z Hz). destruct (real_of_facts z Hz) as [_ ->].
  rewrite <- !app_assoc. reflexivity.
Qed.
Lemma map_cs l : Forall nonul l -> map c_str l = l.
Proof. induction 1 as [|s l H _ IH]; [reflexivity|]. cbn [map]. rewrite IH, c_str_id by exact H. reflexivity. Qed.

Lemma zscreen_eq vars i z : zone_fits z -> Z.of_nat i < INT_MAX -> nonul (z_name z) -> Forall nonul vars ->
  zscreen vars i z = lines_of "   " vars i z.
Proof.
  intros Hz Hi Hn Hv. unfold zscreen, lines_of. rewrite (zline_eq i z Hi Hn), lines_zone_eq by (assumption || apply map_cs, Hv). reflexivity.
Qed.
Definition zlog (vars : list string) (i : nat) (z : zone) : list string :=
  (if_on (z_echo z) 0 (zline i z) ++ zecho_lines vars z ++ if_on (z_echo z) 1 (zline i z))%list.
Lemma zlog_eq vars i z : zone_fits z -> Z.of_nat i < INT_MAX -> nonul (z_name z) -> zlog vars i z = lines_of " " vars i z.
Proof.
  intros Hz Hi Hn. unfold zlog, lines_of, zecho_lines. rewrite (zline_eq i z Hi Hn), lines_zone_eq by (assumption || apply map_id). reflexivity.
Qed.

Lemma each_eq F gap vars l : forall i, Z.of_nat (i + length l) <= INT_MAX ->
  (forall i z, Z.of_nat i < INT_MAX -> In z l -> F i z = lines_of gap vars i z) -> each F i l = lines_zones gap vars i l.
Proof.
  induction l as [|z l IH]; intros i Hi H; [reflexivity|]. cbn [each lines_zones length] in *.
  rewrite H by (lia || (left; reflexivity)). rewrite IH; [reflexivity|lia|]. intros. apply H; [assumption|right; assumption].
Qed.

(** ** The echo of the log *)

Definition zoneless (l : list string) : Prop := Forall (fun s => s <> ZONE_LINE) l.
Lemma zoneless_on m b s : harmless s -> zoneless (if_on m b s).
Proof. intros H. unfold if_on. destruct (Z.testbit m b); constructor; [apply harmless_neq, H|constructor]. Qed.

Lemma out_plain F zs l t : zoneless l ->
  file_text_out 0 0 F zs (l ++ t) = let* r := file_text_out 0 0 F zs t in Ok (printed_lines (map c_str l) ++ r).
Proof.
  induction 1 as [|s l H _ IH]; cbn [app map].
  - change (printed_lines []) with "". destruct (file_text_out 0 0 F zs t); reflexivity.
  - cbn [file_text_out]. destruct (String.eqb_spec s ZONE_LINE) as [C|_]; [contradiction|].
    rewrite IH, printed_cons. destruct (file_text_out 0 0 F zs t) as [r| |]; cbn [rbind]; [|reflexivity|reflexivity].
    unfold line_out. cbn [repeat String.concat]. change ("" ++ c_str s ++ NL) with (c_str s ++ NL). rewrite !append_assoc. reflexivity.
Qed.
Lemma zone_out l : zone_text_out 0 l = printed_lines (map c_str l).
Proof.
  unfold zone_text_out, printed_lines. rewrite map_map. f_equal.
Qed.

Lemma out_zones vars l : forall i zs rest t, map zl_echo zs = (map (zecho_lines vars) l ++ rest)%list ->
  file_text_out 0 0 zl_echo zs (each zmarks i l ++ t) =
    let* r := file_text_out 0 0 zl_echo (skipn (length l) zs) t in Ok (printed_lines (map c_str (each (zlog vars) i l)) ++ r).
Proof.
  induction l as [|z l IH]; intros i zs rest t E; cbn [each map app length skipn].
  - change (printed_lines []) with "". destruct (file_text_out 0 0 zl_echo zs t); reflexivity.
  - destruct zs as [|g zs]; [discriminate E|]. cbn [map app] in E. injection E as E1 E2.
    change (zmarks i z) with (if_on (z_echo z) 0 (zline i z) ++ [ZONE_LINE] ++ if_on (z_echo z) 1 (zline i z))%list.
    change (zlog vars i z) with (if_on (z_echo z) 0 (zline i z) ++ zecho_lines vars z ++ if_on (z_echo z) 1 (zline i z))%list.
    rewrite <- !app_assoc, out_plain by (apply zoneless_on; unfold zline; apply harmless_app; harm).
    cbn [app file_text_out]. rewrite String.eqb_refl, out_plain by (apply zoneless_on; unfold zline; apply harmless_app; harm).
    rewrite (IH (S i) zs rest t E2), zone_out, E1. cbn [skipn].
    destruct (file_text_out 0 0 zl_echo (skipn (length l) zs) t) as [r| |]; cbn [rbind]; [|reflexivity|reflexivity].
    rewrite !map_app, !printed_app, !append_assoc. reflexivity.
Qed.

(** ** Lines without NUL *)

Lemma nonul_on m b s : nonul s -> Forall nonul (if_on m b s).
Proof. intros H. unfold if_on. destruct (Z.testbit m b); repeat constructor. exact H. Qed.
Lemma nonul_concat l : Forall nonul l -> nonul (String.concat "" l).
Proof.
  induction 1 as [|s l H _ IH]; [apply chars_nil|]. rewrite concat_empty_cons. apply chars_app. split; assumption.
Qed.
Lemma nonul_row l : nonul (row l).
Proof. apply nonul_concat. apply Forall_map, Forall_forall. intros x _. nn. Qed.
Lemma nonul_names l : Forall nonul l -> nonul (names l).
Proof. intros H. apply nonul_concat. apply Forall_map. eapply Forall_impl; [|exact H]. cbv beta. intros s Hs. nn. Qed.
Lemma nonul_mb n : nonul (megabytes n).
Proof. unfold megabytes, fmt_fixed. cbv zeta. apply num_nonul. split; [apply app_ne; discriminate|]. capp; [apply show_num|apply lit_num; reflexivity|apply show_pad_num]. Qed.

Ltac nm :=
  first [apply nonul_row|apply nonul_mb|apply nonul_names; assumption|apply lit_nonul; reflexivity|
         apply num_nonul; first [apply num_i|apply num_li|apply num_le|apply num_lf]|assumption|
         apply chars_app; split; nm].

Lemma nonul_in gap vars z : nonul gap -> Forall nonul vars -> Forall nonul (lines_in gap vars z).
Proof.
  intros Hg Hv. unfold lines_in. cbv zeta. repeat (apply Forall_app; split); try (apply nonul_on; nm).
  destruct (z_strand z =? -1); [constructor|]. apply nonul_on. nm.
Qed.
Lemma nonul_of gap vars i z : nonul gap -> Forall nonul vars -> nonul (z_name z) -> Forall nonul (lines_of gap vars i z).
Proof.
  intros Hg Hv Hn. unfold lines_of, line_of. apply Forall_app. split; [apply nonul_on; nm|].
  apply Forall_app. split; [apply nonul_in; assumption|apply nonul_on; nm].
Qed.
Lemma nonul_zones gap vars l : nonul gap -> Forall nonul vars -> Forall (fun z => nonul (z_name z)) l -> forall i, Forall nonul (lines_zones gap vars i l).
Proof.
  intros Hg Hv. induction 1 as [|z l Hz _ IH]; intros i; [constructor|]. cbn [lines_zones]. apply Forall_app. split; [apply nonul_of; assumption|apply IH].
Qed.

Record clean (e : env) (f : tfile) : Prop := {
  cl_path : nonul (f_path f); cl_name : nonul (f_name f); cl_vars : Forall nonul (f_vars f);
  cl_zones : Forall (fun z => nonul (z_name z)) (f_zones f); cl_begin : nonul (e_begin e); cl_end : nonul (e_end e) }.
Lemma clean_of e f : no_nuls e f -> clean e f.
Proof.
  intros (H1 & H2 & H3 & H4 & H5). unfold texts_of in H3. apply Forall_inv_tail in H3. apply Forall_app in H3. destruct H3 as [H3 H6].
  apply Forall_app in H6. destruct H6 as [_ H6]. constructor; try (apply nul_free; assumption).
  - eapply Forall_impl; [|exact H3]. exact nul_free.
  - apply Forall_forall. intros z Hz. apply nul_free. rewrite Forall_forall in H6. apply H6. apply in_flat_map. exists z. split; [exact Hz|left; reflexivity].
Qed.

Section Clean.
Context (e : env) (f : tfile) (C : clean e f).

Lemma fname_eq time : nonul time -> fname c_str f time = file_name f time.
Proof. intros H. unfold fname, file_name. rewrite !c_str_id by (assumption || apply C). reflexivity. Qed.
Lemma before_eq : before c_str e f = lines_before e f.
Proof. unfold before, lines_before. rewrite fname_eq, map_cs by apply C. reflexivity. Qed.
Lemma before_id : before (fun s => s) e f = lines_before e f.
Proof. unfold before, lines_before. rewrite map_id. reflexivity. Qed.
Lemma after_eq : after c_str e f (plt_size f) = lines_after e f.
Proof. unfold after, lines_after. rewrite fname_eq by apply C. reflexivity. Qed.
Lemma after_id : after (fun s => s) e f (plt_size f) = lines_after e f.
Proof. reflexivity. Qed.
Lemma nonul_name time : nonul time -> nonul (file_name f time).
Proof. intros H. unfold file_name. pose proof (cl_path _ _ C). pose proof (cl_name _ _ C). destruct (Z.testbit (f_echo f) 5); nm. Qed.
Lemma nonul_before : Forall nonul (lines_before e f).
Proof.
  pose proof (cl_vars _ _ C). unfold lines_before. repeat (apply Forall_app; split); apply nonul_on; try nm. apply nonul_name, C.
Qed.
Lemma nonul_after : Forall nonul (lines_after e f).
Proof.
  unfold lines_after. repeat (apply Forall_app; split); apply nonul_on; try nm. apply nonul_name, C.
Qed.
Lemma harm_name time : harmless (file_name f time).
Proof. unfold file_name. destruct (Z.testbit (f_echo f) 5); [apply harmless_app; harm|]. intros s'. discriminate. Qed.
Lemma zoneless_before : zoneless (lines_before e f).
Proof. unfold lines_before, zoneless. repeat (apply Forall_app; split); apply zoneless_on; [apply harm_name|apply harmless_app; harm|harm]. Qed.
Lemma zoneless_after : zoneless (lines_after e f).
Proof. unfold lines_after, zoneless. repeat (apply Forall_app; split); apply zoneless_on; try (apply harmless_app; harm). apply harm_name. Qed.

Context (W : file_wf f) (R : ~ refused f).

Lemma zones_fit z : In z (f_zones f) -> zone_fits z /\ nonul (z_name z).
Proof.
  intros H. destruct (not_refused_good f W R) as (_ & _ & G). rewrite Forall_forall in G. split; [apply G, H|].
  pose proof (cl_zones _ _ C) as N. rewrite Forall_forall in N. apply N, H.
Qed.
Lemma count_fits l : incl l (f_zones f) -> (length l <= length (f_zones f))%nat -> forall F gap,
  (forall i z, zone_fits z -> Z.of_nat i < INT_MAX -> nonul (z_name z) -> F i z = lines_of gap (f_vars f) i z) ->
  each F 0 l = lines_zones gap (f_vars f) 0 l.
Proof.
  intros Hi Hl F gap H. apply each_eq; [destruct W as (_ & _ & N & _); lia|]. intros i z Hz Hin.
  apply H; [|exact Hz|]; apply zones_fit, Hi, Hin.
Qed.
Lemma firstn_incl j : incl (firstn j (f_zones f)) (f_zones f) /\ (length (firstn j (f_zones f)) <= length (f_zones f))%nat.
Proof.
  split; [|rewrite firstn_length; lia]. intros z Hz. rewrite <- (firstn_skipn j (f_zones f)). apply in_or_app. left. exact Hz.
Qed.
Lemma each_screen l : incl l (f_zones f) -> (length l <= length (f_zones f))%nat ->
  each (zscreen (f_vars f)) 0 l = lines_zones "   " (f_vars f) 0 l.
Proof. intros Hi Hl. apply count_fits; [assumption|assumption|]. intros. apply zscreen_eq; try assumption. apply C. Qed.
Lemma each_log l : incl l (f_zones f) -> (length l <= length (f_zones f))%nat ->
  each (zlog (f_vars f)) 0 l = lines_zones " " (f_vars f) 0 l.
Proof. intros Hi Hl. apply count_fits; [assumption|assumption|]. intros. apply zlog_eq; assumption. Qed.
Lemma names_of l : incl l (f_zones f) -> Forall (fun z => nonul (z_name z)) l.
Proof. intros H. apply Forall_forall. intros z Hz. apply zones_fit, H, Hz. Qed.
Lemma head_until j z : nth_error (f_zones f) j = Some z -> zline j z = line_of j z.
Proof.
  intros H. apply zline_eq; [|apply zones_fit; eapply nth_error_In; exact H].
  assert (j < length (f_zones f))%nat by (apply nth_error_Some; congruence). destruct W as (_ & _ & N & _). lia.
Qed.

(** The text of the log. *)
Lemma echo_text gs t l rest X : incl l (f_zones f) -> (length l <= length (f_zones f))%nat -> zoneless X -> Forall nonul X ->
  map zl_echo gs = (map (zecho_lines (f_vars f)) l ++ rest)%list ->
  t = (lines_before e f ++ each zmarks 0 l ++ X)%list ->
  file_text_out 0 0 zl_echo gs t = Ok (printed_lines (lines_before e f ++ lines_zones " " (f_vars f) 0 l ++ X)).
Proof.
  intros Hi Hl HX NX Eg ->. rewrite out_plain by exact zoneless_before. rewrite (out_zones (f_vars f) l 0 gs rest X Eg), (each_log l Hi Hl).
  rewrite <- (app_nil_r X) at 1. rewrite out_plain by exact HX. cbn [file_text_out rbind].
  rewrite !map_cs; [|exact NX|apply nonul_zones; [apply lit_nonul; reflexivity|apply C|apply names_of, Hi]|exact nonul_before].
  rewrite append_nil_r, !printed_app. reflexivity.
Qed.
End Clean.

(** ** write_plt *)

Lemma starves_first e f j k : file_wf f -> ~ refused f -> starves e f j k -> first_starved e f j k.
Proof.
  intros W R (z & Hj & (Hk & Ho & Hn & Hb) & Hz). destruct (not_refused_good f W R) as (_ & _ & G).
  assert (Hfit : forall i z, nth_error (f_zones f) i = Some z -> zone_fits z).
  { intros i z' H. rewrite Forall_forall in G. apply G. eapply nth_error_In. exact H. }
  split.
  - exists z. split; [exact Hj|]. split; [|auto]. apply needreal_whole; [eapply Hfit; exact Hj|exact Hn].
  - intros i' k' (z' & A & B & D & E). apply needreal_whole in B; [|eapply Hfit; exact A].
    destruct (lt_eq_lt_dec i' j) as [[L| ->]|L]; [| |left; exact L].
    + specialize (Hz i' z' L A B k' D). congruence.
    + right. split; [reflexivity|]. destruct (le_lt_dec k k') as [L|L]; [exact L|]. specialize (Hb k' L). congruence.
Qed.

Section Final.
Context (e : env) (f : tfile) (W : file_wf f) (Z : plt_size f < 2 ^ 63).

Lemma screen_flag echo :
  match write_plt e f with
  | Ret s u => exists w, write_plt_on echo e f = Ret (w, s) u /\ (echo = false -> w = "")
  | Thr s x => exists w, write_plt_on echo e f = Thr (w, s) x /\ (echo = false -> w = "")
  | Undef => write_plt_on echo e f = Undef
  end.
Proof.
  pose proof (write_on echo e f W Z) as H. destruct (write_plt e f) as [[s g] u|[s g] x|]; [| |exact H].
  - destruct H as (H & _). eexists. split; [exact H|]. intros ->. reflexivity.
  - destruct H as [(_ & H)|(_ & _ & j & z & k & _ & _ & H & _)]; (eexists; split; [exact H|]); [reflexivity|]. intros ->. reflexivity.
Qed.

Context (N : no_nuls e f).
Lemma screen_ret s g u : write_plt e f = Ret (s, g) u ->
  write_plt_on true e f = Ret (printed_lines (all_lines "   " e f), (s, g)) u /\
  write_echo g = Ok (printed_lines (all_lines " " e f)).
Proof.
  intros E. pose proof (write_on true e f W Z) as H. pose proof (write_spec e f W Z) as H'. rewrite E in H, H'.
  destruct H' as (R & _ & _ & _ & pvs & HW). destruct H as (H1 & H2 & H3).
  assert (Es : fl_size g = plt_size f) by apply HW. rewrite Es in *. clear HW.
  pose proof (clean_of e f N) as C. split.
  - rewrite H1. unfold sh, all_lines. rewrite (before_eq e f C), (after_eq e f C), (each_screen e f C W R) by (apply incl_refl || lia). reflexivity.
  - unfold write_echo. rewrite H2, before_id. rewrite after_id. unfold all_lines.
    apply (echo_text e f C W R _ _ (f_zones f) []); try (apply incl_refl || lia); [apply zoneless_after|apply nonul_after, C|rewrite app_nil_r; exact H3|reflexivity].
Qed.
Lemma screen_thr s g x : write_plt e f = Thr (s, g) x ->
  (refused f \/ e_open e = false) /\ write_plt_on true e f = Thr ("", (s, g)) x /\ write_echo g = Ok "" \/
  ~ refused f /\ e_open e = true /\ exists i k, first_starved e f i k /\
    write_plt_on true e f = Thr (printed_lines (lines_until "   " e f i), (s, g)) x /\
    write_echo g = Ok (printed_lines (lines_until " " e f i)).
Proof.
  intros E. pose proof (write_on true e f W Z) as H. pose proof (write_spec e f W Z) as H'. rewrite E in H, H'.
  pose proof (clean_of e f N) as C.
  destruct H as [(H1 & H2)|(R & Ho & j & z & k & Hj & Hs & H1 & H2 & H3)]; [left|right].
  - split; [exact H1|]. split; [exact H2|]. destruct H' as (m & _ & [[_ H']|[(_ & _ & H')|(R & Ho & _)]]).
    + destruct H' as (_ & _ & H' & _). unfold write_echo. rewrite H'. reflexivity.
    + destruct H' as (_ & _ & H' & _). unfold write_echo. rewrite H'. reflexivity.
    + destruct H1 as [H1|H1]; [contradiction|congruence].
  - split; [exact R|]. split; [exact Ho|]. exists j, k. split; [apply starves_first; assumption|].
    destruct (firstn_incl f j) as [I1 I2]. unfold lines_until. rewrite Hj. rewrite (head_until e f C W R j z Hj) in H1, H2.
    assert (Nz : nonul (z_name z)) by (apply (zones_fit e f C W R); eapply nth_error_In; exact Hj). split.
    + rewrite H1. unfold sh. rewrite (before_eq e f C), (each_screen e f C W R) by assumption. reflexivity.
    + unfold write_echo. rewrite H2, before_id.
      eapply (echo_text e f C W R _ _ (firstn j (f_zones f))); try assumption; [| |exact H3|reflexivity].
      * apply zoneless_on. unfold line_of. apply harmless_app. harm.
      * apply nonul_on. unfold line_of. nm.
Qed.
End Final.

(** ** The difference between the two *)

Lemma printed_length l : String.length (printed_lines l) = list_sum (map (fun s => S (String.length s)) l).
Proof.
  induction l as [|s l IH]; [reflexivity|]. rewrite printed_cons, !length_append. cbn [map list_sum fold_right]. fold (list_sum (map (fun s => S (String.length s)) l)).
  rewrite IH. change (String.length NL) with 1%nat. lia.
Qed.
Definition begins (l : list zone) : nat := length (filter (fun z => Z.testbit (z_echo z) 6) l).
Lemma lines_in_length vars z :
  String.length (printed_lines (lines_in "   " vars z)) =
  (String.length (printed_lines (lines_in " " vars z)) + 2 * (if Z.testbit (z_echo z) 6 then 1 else 0))%nat.
Proof.
  unfold lines_in. cbv zeta. rewrite !printed_app, !length_append.
  assert (H : forall a b, String.length (printed_lines (if_on (z_echo z) 6 (a ++ "   " ++ b))) =
    (String.length (printed_lines (if_on (z_echo z) 6 (a ++ " " ++ b))) + 2 * (if Z.testbit (z_echo z) 6 then 1 else 0))%nat).
  { intros a b. unfold if_on. destruct (Z.testbit (z_echo z) 6); [|reflexivity]. rewrite !printed_one, !length_append. cbn [String.length]. lia. }
  assert (H1 : forall gap, "     Begin = [" ++ row (list3 (z_begin z)) ++ " ]" ++ gap ++ "End = [" ++ row (list3 (z_end z)) ++ " ]" =
    ("     Begin = [" ++ row (list3 (z_begin z)) ++ " ]") ++ gap ++ "End = [" ++ row (list3 (z_end z)) ++ " ]") by (intros; rewrite !append_assoc; reflexivity).
  rewrite !H1, H. lia.
Qed.
Lemma lines_zones_length vars l : forall i,
  String.length (printed_lines (lines_zones "   " vars i l)) = (String.length (printed_lines (lines_zones " " vars i l)) + 2 * begins l)%nat.
Proof.
  induction l as [|z l IH]; intros i; [reflexivity|]. cbn [lines_zones]. unfold lines_of. rewrite !printed_app, !length_append, IH, lines_in_length.
  unfold begins. cbn [filter]. destruct (Z.testbit (z_echo z) 6); cbn [length]; lia.
Qed.
Lemma all_length e f :
  String.length (printed_lines (all_lines "   " e f)) = (String.length (printed_lines (all_lines " " e f)) + 2 * begins (f_zones f))%nat.
Proof. unfold all_lines. rewrite !printed_app, !length_append, lines_zones_length. lia. Qed.
Lemma all_same gap gap' e f : Forall (fun z => Z.testbit (z_echo z) 6 = false) (f_zones f) -> all_lines gap e f = all_lines gap' e f.
Proof.
  intros H. unfold all_lines. f_equal. f_equal. generalize O as i. induction H as [|z l H _ IH]; intros i; [reflexivity|]. cbn [lines_zones].
  rewrite IH. f_equal. unfold lines_of, lines_in, if_on. rewrite H. reflexivity.
Qed.
Lemma begins_none l : begins l = O <-> Forall (fun z => Z.testbit (z_echo z) 6 = false) l.
Proof.
  unfold begins. induction l as [|z l IH]; [split; [constructor|reflexivity]|]. cbn [filter]. rewrite Forall_cons_iff.
  destruct (Z.testbit (z_echo z) 6); [|tauto]. split; [discriminate|intros [H _]; discriminate H].
Qed.
Lemma same_iff e f : printed_lines (all_lines "   " e f) = printed_lines (all_lines " " e f) <->
  Forall (fun z => Z.testbit (z_echo z) 6 = false) (f_zones f).
Proof.
  split; intros H; [|rewrite (all_same "   " " " e f H); reflexivity].
  apply begins_none. pose proof (all_length e f) as L. rewrite H in L. lia.
Qed.
