(** What write_plt promises, from the description of every outcome. *)

From Coq Require Import ZArith Ascii String List Bool Lia.
From Verif Require Import Base M_Bytes M_TecZone M_TecFile Spec_Loop Spec_Tec Spec_Plt
  L_Base L_TecZone L_TecMin L_Plt L_Text L_TecWrite L_TecFile L_TecText L_TecWhole.
Import ListNotations.
Open Scope list_scope.
Open Scope Z_scope.

Lemma plt_parse e f s g u :
  file_wf f -> plt_size f < 2 ^ 63 -> Forall no_nul (texts_of f) ->
  write_plt e f = Ret (s, g) u ->
  exists b p, disk s = Some b /\ parse_plt b = Some p /\ shows f p.
Proof.
  intros Hw Hs Hn E. pose proof (write_spec e f Hw Hs) as H. rewrite E in H.
  destruct H as (Hr & _ & _ & _ & pvs & Hok & -> & _). destruct (not_refused_good f Hw Hr) as (_ & _ & Hg).
  exists (plt_bytes (plt_of f pvs)), (plt_of f pvs). split; [reflexivity|]. split; [|apply plt_of_shows; assumption].
  apply parse_w. apply plt_of_good; assumption.
Qed.

Lemma plt_log e f s g u :
  file_wf f -> plt_size f < 2 ^ 63 ->
  write_plt e f = Ret (s, g) u ->
  exists b p, disk s = Some b /\ shows f p /\ (Forall no_nul (texts_of f) -> parse_plt b = Some p) /\
    Forall2 (logs_zone b) (p_zones p) (fl_zones g) /\ map zl_zone (fl_zones g) = f_zones f /\
    map zl_size (fl_zones g) = map data_size (f_zones f) /\
    fl_size g = Z.of_nat (length b) /\ Z.of_nat (length b) = plt_size f /\
    fl_file g = f /\ fl_begin g = e_begin e /\ fl_end g = e_end e /\ fl_using g = e_using e /\ fl_error g = ""%string.
Proof.
  intros Hw Hs E. pose proof (write_spec e f Hw Hs) as H. rewrite E in H.
  destruct H as (Hr & _ & _ & _ & pvs & Hok & -> & H1 & H2 & H3 & H4 & H5 & H6 & H7 & H8 & H9 & _). destruct (not_refused_good f Hw Hr) as (_ & _ & Hg).
  exists (plt_bytes (plt_of f pvs)), (plt_of f pvs). split; [reflexivity|]. split; [apply plt_of_shows; assumption|].
  split; [intros Hn; apply parse_w; apply plt_of_good; assumption|].
  rewrite plt_length by assumption. auto 20.
Qed.

(** ** Texts *)

Lemma concat_empty_cons s l : (String.concat "" (s :: l) = s ++ String.concat "" l)%string.
Proof. destruct l; cbn [String.concat]; [symmetry; apply append_nil_r|reflexivity]. Qed.
Lemma tabs_eq d : String.concat "" (repeat TAB d) = tabs d.
Proof. induction d as [|d IH]; [reflexivity|]. cbn [repeat tabs]. rewrite concat_empty_cons, IH. reflexivity. Qed.
Lemma line_out_eq d s : line_out d s = (tabs d ++ c_str s ++ NL)%string.
Proof. unfold line_out. rewrite tabs_eq. reflexivity. Qed.
Lemma zone_text_eq d l : zone_text_out d l = lines d l.
Proof.
  unfold zone_text_out. induction l as [|s l IH]; [reflexivity|]. cbn [map lines]. rewrite concat_empty_cons, IH, line_out_eq.
  rewrite !append_assoc. reflexivity.
Qed.

Lemma text_out zd d zt t : forall zs, (zcount t <= length zs)%nat ->
  printed d zd zt zs (zcount t) t (file_text_out zd d zt zs t).
Proof.
  unfold printed. induction t as [|s t IH]; intros zs Hc.
  - exists [], []. split; [reflexivity|]. split; [reflexivity|]. split; [intros c [<-|[]] []|]. cbn. destruct zs; reflexivity.
  - cbn [file_text_out]. unfold zcount in *. cbn [count_occ] in *. destruct (string_dec s ZONE_LINE) as [E|E].
    + subst s. rewrite String.eqb_refl. destruct zs as [|z zs]; [cbn in Hc; lia|].
      destruct (IH zs) as (c0 & cs & E1 & E2 & E3 & E4); [cbn in Hc; lia|]. rewrite E4. cbn [rbind].
      exists [], (c0 :: cs). split; [cbn [reserve app]; rewrite E1; reflexivity|].
      split; [cbn [length]; lia|]. split.
      * intros c [<-|Hc']; [intros []|]. apply E3. assumption.
      * cbn [weave lines]. rewrite zone_text_eq. reflexivity.
    + destruct (String.eqb s ZONE_LINE) eqn:B; [apply String.eqb_eq in B; contradiction|].
      destruct (IH zs Hc) as (c0 & cs & E1 & E2 & E3 & E4). rewrite E4. cbn [rbind].
      exists (s :: c0), cs. split; [rewrite E1; reflexivity|]. split; [assumption|]. split.
      * intros c [<-|Hc'] Hin; [|apply (E3 c); [right; assumption|assumption]].
        destruct Hin as [Es|Hin]; [apply E; exact Es|]. apply (E3 c0); [left; reflexivity|assumption].
      * cbn [lines]. rewrite line_out_eq, !append_assoc. reflexivity.
Qed.

Lemma texts_printed e f s g u depth :
  file_wf f -> plt_size f < 2 ^ 63 -> write_plt e f = Ret (s, g) u ->
  map zl_zone (fl_zones g) = f_zones f /\
  printed 0 0 zl_echo (fl_zones g) (length (f_zones f)) (fl_echo g) (write_echo g) /\
  printed depth (depth + 2) zl_json (fl_zones g) (length (f_zones f)) (fl_json g) (write_json g depth) /\
  printed depth (depth + 2) zl_xml (fl_zones g) (length (f_zones f)) (fl_xml g) (write_xml g depth).
Proof.
  intros Hw Hs E. pose proof (write_spec e f Hw Hs) as H. rewrite E in H.
  destruct H as (Hr & _ & _ & _ & pvs & Hok & -> & _ & H2 & _ & _ & _ & _ & _ & _ & _ & C1 & C2 & C3 & _).
  assert (Hl : length (fl_zones g) = length (f_zones f)) by (rewrite <- H2, map_length; reflexivity).
  split; [assumption|]. rewrite <- C1 at 1. rewrite <- C2 at 1. rewrite <- C3 at 1.
  split; [|split]; apply text_out; lia.
Qed.

Lemma texts_after_exception e f s g x depth :
  file_wf f -> plt_size f < 2 ^ 63 -> write_plt e f = Thr (s, g) x ->
  (exists n, (n <= length (fl_zones g))%nat /\ printed 0 0 zl_echo (fl_zones g) n (fl_echo g) (write_echo g)) /\
  write_json g depth = Ok ""%string /\ write_xml g depth = Ok ""%string.
Proof.
  intros Hw Hs E. pose proof (write_spec e f Hw Hs) as H. rewrite E in H. destruct H as (m & -> & H).
  assert (Hgo : (zcount (fl_echo g) <= length (fl_zones g))%nat /\ fl_json g = [] /\ fl_xml g = []).
  { destruct H as [(_ & _ & _ & He & Hj & Hx)|[(_ & _ & _ & _ & He & Hj & Hx)|(_ & _ & i & k & b & _ & _ & _ & Hj & Hx & Hl & Hc)]].
    - rewrite He. split; [cbn; lia|auto].
    - rewrite He. split; [cbn; lia|auto].
    - split; [lia|auto]. }
  destruct Hgo as (Hc & Hj & Hx). unfold write_json, write_xml. rewrite Hj, Hx. split; [|split; reflexivity].
  exists (zcount (fl_echo g)). split; [assumption|]. apply text_out. assumption.
Qed.

(** ** When it is defined *)

Lemma write_defined e f :
  file_wf f -> plt_size f < 2 ^ 63 -> ~ refused f -> e_open e = true -> (forall i k, ~ starved e f i k) -> calm e ->
  (short f -> exists s g, write_plt e f = Ret (s, g) tt) /\ (~ short f -> write_plt e f = Undef).
Proof.
  intros Hw Hs Hr Ho Hst Hc. pose proof (write_spec e f Hw Hs) as H.
  destruct (write_plt e f) as [[s g] []|[s g] x|].
  - destruct H as (_ & _ & H & _). split; [eauto|contradiction].
  - exfalso. destruct H as (m & _ & [(H & _)|[(_ & H & _)|(_ & _ & i & k & b & (H & _) & _)]]); [contradiction|congruence|].
    apply (Hst i k H).
  - destruct H as (_ & _ & H). split; [|reflexivity]. intros S. exfalso. apply H. split; assumption.
Qed.

(** ** What is left behind *)

Lemma write_refused e f :
  file_wf f -> refused f \/ e_open e = false -> plt_size f < 2 ^ 63 ->
  exists s g m, write_plt e f = Thr (s, g) (ETec m) /\ fl_error g = m /\ disk s = None /\ opened s = false /\ live s = 0.
Proof.
  intros Hw Hr Hs. pose proof (write_spec e f Hw Hs) as H.
  destruct (write_plt e f) as [[s g] u|[s g] x|].
  - exfalso. destruct H as (H1 & H2 & _). destruct Hr; [contradiction|congruence].
  - destruct H as (m & -> & H). exists s, g, m. split; [reflexivity|].
    destruct H as [(_ & H)|[(_ & _ & H)|(H1 & H2 & _)]]; [| |exfalso; destruct Hr; [contradiction|congruence]];
    destruct H as (-> & H & _); repeat split; assumption.
  - exfalso. destruct H as (H1 & H2 & _). destruct Hr; [contradiction|congruence].
Qed.

Lemma write_clean e f s g u :
  file_wf f -> plt_size f < 2 ^ 63 -> write_plt e f = Ret (s, g) u -> opened s = false /\ live s = 0.
Proof.
  intros Hw Hs E. pose proof (write_spec e f Hw Hs) as H. rewrite E in H.
  destruct H as (_ & _ & _ & _ & pvs & _ & -> & _). split; reflexivity.
Qed.

Lemma first_starved_unique e f i k i' k' : first_starved e f i k -> first_starved e f i' k' -> i = i' /\ k = k'.
Proof. intros [A B] [C D]. specialize (B _ _ C). specialize (D _ _ A). lia. Qed.

Lemma write_starved e f i k :
  file_wf f -> plt_size f < 2 ^ 63 -> ~ refused f -> e_open e = true -> short f -> calm e -> first_starved e f i k ->
  exists s g m, write_plt e f = Thr (s, g) (ETec m) /\
    (exists b, disk s = Some b) /\ opened s = true /\ live s = Z.of_nat k /\ fl_error g = ""%string.
Proof.
  intros Hw Hs Hr Ho Hsh Hc Hf. pose proof (write_spec e f Hw Hs) as H.
  destruct (write_plt e f) as [[s g] u|[s g] x|].
  - exfalso. destruct H as (_ & _ & _ & H & _). apply (H i k). apply Hf.
  - destruct H as (m & -> & [(H & _)|[(_ & H & _)|(_ & _ & i' & k' & b & F & -> & He & _)]]); [contradiction|congruence|].
    destruct (first_starved_unique _ _ _ _ _ _ Hf F) as [-> ->]. exists (mkFs (Some b) true (Z.of_nat k')), g, m.
    split; [reflexivity|]. split; [exists b; reflexivity|]. split; [reflexivity|]. split; [reflexivity|assumption].
  - exfalso. destruct H as (_ & _ & H). apply H. split; assumption.
Qed.
