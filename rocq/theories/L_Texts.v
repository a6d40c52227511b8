(** Texts tell what they are about. *)

From Coq Require Import ZArith Ascii String List Bool Lia.
From Verif Require Import Base M_Flags M_RS1 M_RS2 M_RS3 M_Bytes M_TecZone M_TecFile M_Heap M_PD0 M_PD1 M_PD2 M_PD3 M_World
  Spec Spec_Loop Spec_Array Spec_Log Spec_Hist Spec_Reach M_Scan M_Texts Spec_Texts
  L_Base L_Loop L_Text L_Scan L_World L_Access L_Rep L_Kind L_Disp.
Import ListNotations.
Open Scope string_scope.
Open Scope Z_scope.

(** ** Numbers in texts *)

Definition small (z : Z) : Prop := Z.abs z < 10 ^ 10.
Lemma in_int_small z : in_int z -> small z.
Proof. unfold in_int, small. change (10 ^ 10) with 10000000000. lia. Qed.
Lemma in_uint_small z : in_uint z -> small z.
Proof. unfold in_uint, small. change (10 ^ 10) with 10000000000. change UINT_MOD with 4294967296. lia. Qed.

Lemma decimal_fmt_app z r : small z -> stops r -> decimal (fmt_i z ++ r) = Some z.
Proof.
  intros H Hr. unfold small in H. unfold fmt_i. destruct (z <? 0) eqn:E; zcmp.
  - rewrite append_assoc. rewrite (decimal_show true 9 (- z) r); [f_equal; lia| |assumption].
    change (Z.of_nat 10) with 10. lia.
  - pose proof (decimal_show false 9 z r) as D. cbn [append] in D. apply D; [|assumption].
    change (Z.of_nat 10) with 10. lia.
Qed.
Lemma append_cancel s : forall r r', s ++ r = s ++ r' -> r = r'.
Proof. induction s as [|c s IH]; cbn; intros r r' H; [exact H|]. injection H as H. now apply IH. Qed.
Lemma fmt_app_inj a b r r' : small a -> small b -> stops r -> stops r' -> fmt_i a ++ r = fmt_i b ++ r' -> a = b /\ r = r'.
Proof.
  intros Ha Hb Hr Hr' E. pose proof (decimal_fmt_app a r Ha Hr) as D. rewrite E, (decimal_fmt_app b r' Hb Hr') in D.
  injection D as <-. split; [reflexivity|]. now apply append_cancel in E.
Qed.
Lemma fmt_inj a b : small a -> small b -> fmt_i a = fmt_i b -> a = b.
Proof.
  intros Ha Hb E. apply (fmt_app_inj a b "" ""); try assumption; try exact I. now rewrite E.
Qed.
Lemma fmt_u_i z : 0 <= z -> fmt_u z = fmt_i z.
Proof. intros H. unfold fmt_u, fmt_i. destruct (z <? 0) eqn:E; zcmp; [lia|reflexivity]. Qed.
Lemma tail_inj c s s' : String c s = String c s' -> s = s'.
Proof. intros H. injection H as H. exact H. Qed.

(** Take two equal texts apart. *)
Ltac peel H :=
  cbn [append] in H;
  lazymatch type of H with
  | String ?c _ = String ?c _ => apply tail_inj in H; peel H
  | String _ _ = String _ _ => exfalso; clear - H; discriminate H
  | ?x = ?x => clear H
  | fmt_i ?a ++ _ = fmt_i ?b ++ _ =>
      let E := fresh "E" in
      apply fmt_app_inj in H;
        [destruct H as [E H]; first [subst a | subst b | idtac]; peel H
        |first [assumption|apply in_int_small; assumption|apply in_uint_small; assumption|idtac]
        |first [assumption|apply in_int_small; assumption|apply in_uint_small; assumption|idtac]|first [assumption|reflexivity]|first [assumption|reflexivity]]
  | fmt_i ?a = fmt_i ?b =>
      apply fmt_inj in H;
        [|first [assumption|apply in_int_small; assumption|apply in_uint_small; assumption]
         |first [assumption|apply in_int_small; assumption|apply in_uint_small; assumption]]
  | _ => idtac
  end.

(** ** Exceptions *)

Lemma axis_cases d : 0 <= d < 3 -> d = 0 \/ d = 1 \/ d = 2.
Proof. lia. Qed.

Lemma what_inj e e' : numbers_ok e -> numbers_ok e' -> what e <> None -> what e = what e' -> e = e'.
Proof.
  intros H H' Hn E. destruct e; try (destruct Hn; reflexivity); clear Hn; destruct e'; try discriminate E;
  cbn [numbers_ok] in H, H';
  repeat match goal with
  | K : 0 <= ?d < 3 |- _ => apply axis_cases in K
  | K : _ /\ _ |- _ => destruct K
  | K : _ \/ _ |- _ => destruct K; subst
  end; try reflexivity;
  cbn [what ijk_str flag_str Z.eqb Pos.eqb] in E; apply (f_equal (fun x => match x with Some y => y | None => "" end)) in E; cbv beta iota in E;
  rewrite ?fmt_u_i in E by (match goal with K : in_uint _ |- _ => apply K end).
  all: try (exfalso; clear - E; discriminate E).
  all: peel E.
  all: first [reflexivity | f_equal; lia].
Qed.

(** ** The message of a refused access *)

Lemma all_digits_show f : forall n acc, 0 <= n -> all_digits acc = true -> all_digits (show_acc f n acc) = true.
Proof.
  induction f as [|f IH]; intros n acc H Ha; cbn [show_acc]; [assumption|].
  pose proof (Z.mod_pos_bound n 10 ltac:(lia)).
  assert (all_digits (String (digit (n mod 10)) acc) = true) by (cbn [all_digits]; now rewrite is_digit_digit, Ha by lia).
  destruct (n <? 10); [assumption|]. apply IH; [apply Z.div_pos; lia|assumption].
Qed.
Lemma numeral_fmt z : small z -> numeral (fmt_i z) z.
Proof.
  intros H. split.
  - pose proof (decimal_fmt_app z "" H I) as D. now rewrite append_nil_r in D.
  - unfold fmt_i. destruct (z <? 0) eqn:E; zcmp; [right|left].
    + eexists. split; [reflexivity|]. apply all_digits_show; [lia|reflexivity].
    + apply all_digits_show; [lia|reflexivity].
Qed.

Lemma spells_last s l : l = [W s] -> spells s l.
Proof. intros ->. rewrite <- (append_nil_r s) at 1. constructor. constructor. Qed.

Ltac small_tac := unfold small, in_int, in_uint in *; change (10 ^ 10) with 10000000000 in *; change UINT_MOD with 4294967296 in *; lia.
Ltac spell := repeat first
  [ apply spells_last; reflexivity
  | apply spells_word
  | apply spells_num; [apply numeral_fmt; small_tac|] ].

Lemma nth_lt {A} (l : list A) n x : nth_error l n = Some x -> (n < length l)%nat.
Proof. intros H. apply nth_error_Some. congruence. Qed.

Lemma flag_first d0 ls : forall d fl e,
  flag_error d ls fl = Some e -> d = Z.of_nat d0 ->
  exists j l f, nth_error ls j = Some l /\ nth_error fl j = Some f /\ ~ flag_fits l f /\
    e = (match l with center => EFlagCenter | half => EFlagHalf end) (Z.of_nat (d0 + j)) /\
    forall i l f, (i < j)%nat -> nth_error ls i = Some l -> nth_error fl i = Some f -> flag_fits l f.
Proof.
  revert d0. induction ls as [|l ls IH]; intros d0 d fl e H Hd; [destruct fl; discriminate|].
  destruct fl as [|f fl]; [discriminate|]. cbn [flag_error] in H.
  assert (D : flag_fits l f \/ ~ flag_fits l f) by (destruct l, f; cbn; auto).
  destruct D as [D|D].
  - assert (H1 : flag_error (d + 1) ls fl = Some e) by (destruct l, f; cbn in D; try contradiction; exact H).
    destruct (IH (S d0) (d + 1) fl e H1 ltac:(lia)) as (j & l' & f' & A & B & C & -> & K).
    exists (S j), l', f'. conjs; auto.
    + do 2 f_equal. lia.
    + intros [|i] l1 f1 Hi E1 E2; cbn in E1, E2; [injection E1 as <-; injection E2 as <-; assumption|].
      eapply K; eauto. lia.
  - exists O, l, f. conjs; auto.
    + rewrite Nat.add_0_r, <- Hd. destruct l, f; cbn in D; try tauto; congruence.
    + intros i ? ? Hi. lia.
Qed.
Lemma flags_all ls : forall d fl, flag_error d ls fl = None ->
  forall i l f, nth_error ls i = Some l -> nth_error fl i = Some f -> flag_fits l f.
Proof.
  induction ls as [|l ls IH]; intros d fl H i l1 f1 E1 E2; [destruct i; discriminate|].
  destruct fl as [|f fl]; [destruct i; discriminate|]. cbn [flag_error] in H.
  destruct i as [|i]; cbn in E1, E2.
  - injection E1 as <-; injection E2 as <-. destruct l, f; cbn in *; try discriminate; exact I.
  - apply (IH (d + 1) fl) with (i := i); try assumption. destruct l, f; try discriminate; exact H.
Qed.

Lemma dim_ok_slots l g x f : flag_fits l f ->
  (dim_ok l g x f <-> (fst (slots g l) <=? x + fl_offset f) && (x + fl_offset f <? snd (slots g l)) = true).
Proof.
  intros Hf. rewrite andb_true_iff, Z.leb_le, Z.ltb_lt. destruct g as [[n i] p].
  destruct l, f; cbn in Hf; try contradiction; cbn [dim_ok fl_offset]; unfold slots; cbn [fst snd region loc_val]; lia.
Qed.

Lemma index_first d0 ls : forall d gs q fl e,
  (forall i l f, nth_error ls i = Some l -> nth_error fl i = Some f -> flag_fits l f) ->
  index_error d ls gs q fl = Some e -> d = Z.of_nat d0 ->
  exists j l g x f, nth_error ls j = Some l /\ nth_error gs j = Some g /\ nth_error q j = Some x /\ nth_error fl j = Some f /\
    ~ dim_ok l g x f /\ e = range_error l (Z.of_nat (d0 + j)) x (fl_offset f) (region g RALL) /\
    forall i l g x f, (i < j)%nat -> nth_error ls i = Some l -> nth_error gs i = Some g -> nth_error q i = Some x ->
      nth_error fl i = Some f -> dim_ok l g x f.
Proof.
  revert d0. induction ls as [|l ls IH]; intros d0 d gs q fl e HF H Hd; [destruct gs, q, fl; discriminate|].
  destruct gs as [|g gs]; [discriminate|]. destruct q as [|x q]; [discriminate|]. destruct fl as [|f fl]; [discriminate|].
  cbn [index_error] in H. pose proof (dim_ok_slots l g x f (HF O l f eq_refl eq_refl)) as D.
  destruct (_ && _) eqn:Eb.
  - destruct (IH (S d0) (d + 1) gs q fl e) as (j & l' & g' & x' & f' & A & B & C & A' & B' & -> & K); [|exact H|lia|].
    { intros i l1 f1 E1 E2. apply (HF (S i)); assumption. }
    exists (S j), l', g', x', f'. conjs; auto.
    + f_equal. lia.
    + intros [|i] l1 g1 x1 f1 Hi E1 E2 E3 E4; cbn in E1, E2, E3, E4.
      * injection E1 as <-; injection E2 as <-; injection E3 as <-; injection E4 as <-. now apply D.
      * eapply K; eauto. lia.
  - exists O, l, g, x, f. conjs; auto.
    + intros Hc. apply D in Hc. discriminate.
    + injection H as <-. f_equal. lia.
    + intros i ? ? ? ? Hi. lia.
Qed.

Section Message.
Context {V : Type}.

Lemma message F (h : list (op V)) w aw a k o n q fl e :
  after F h w aw -> healthy aw a -> find w a = Some (k, o) ->
  in_uint n -> length q = length (k_locs k) -> length fl = length (k_locs k) -> Forall in_int q ->
  m_at true k (heap w) o n q fl = Err e ->
  exists t, what e = Some t /\ tells k o n q fl t /\ numbers_ok e.
Proof.
  intros HA HH Hf Hn Hq Hfl Hi He. pose proof (access_total F h w aw a k o n q fl HA HH Hf Hn Hq Hfl Hi) as HT.
  destruct (after_find _ _ _ _ _ _ _ HA Hf) as (x & own & lk & Ha & HN & Hr & _).
  pose proof (rep_shape_ok _ _ _ _ _ Hr) as Hs. clear HA HH Hf Ha Hr. unfold access_answer in HT.
  assert (HX : match o_data o with Null => Some ENoData | _ => access_error (k_N k) (k_locs k) (m_size o) n q fl end = Some e).
  { destruct (match o_data o with Null => _ | _ => _ end) as [e1|] eqn:E1; [congruence|].
    destruct HT as (? & ? & ? & HT & _). congruence. }
  clear HT He.
  assert (D : o_data o = Null \/ o_data o <> Null) by (destruct (o_data o); [left; reflexivity|right; discriminate..]).
  destruct D as [D|Hd].
  { rewrite D in HX. injection HX as <-. eexists. split; [reflexivity|]. split; [now apply tells_data|exact I]. }
  assert (HX' : access_error (k_N k) (k_locs k) (m_size o) n q fl = Some e) by (destruct (o_data o); [contradiction|exact HX..]).
  clear HX. unfold access_error in HX'.
  destruct (k_N k <=? n) eqn:En; zcmp.
  { injection HX' as <-. eexists. split; [reflexivity|]. unfold kok in HN. split; [|split; [assumption|unfold in_int; lia]].
    apply tells_component; [assumption|assumption|]. rewrite fmt_u_i by apply Hn. spell. }
  destruct (flag_error 0 (k_locs k) fl) as [e1|] eqn:Ef.
  { injection HX' as <-.
    destruct (flag_first 0 (k_locs k) 0 fl e1 Ef eq_refl) as (j & l & f & A & B & C & -> & K). cbn [Nat.add].
    assert (Hj : (j < 3)%nat) by (apply nth_lt in A; destruct k; cbn in A; lia).
    destruct l; (eexists; split; [reflexivity|]; split; [|cbn [numbers_ok]; unfold in_int; lia]);
    [eapply tells_flag_center|eapply tells_flag_half]; try eassumption; spell. }
  pose proof (flags_all _ _ _ Ef) as HF.
  destruct (index_first 0 (k_locs k) 0 (m_size o) q fl e HF HX' eq_refl) as (j & l & g & y & f & A1 & A2 & A3 & A4 & C & -> & K).
  cbn [Nat.add].
  assert (Hj : (j < 3)%nat) by (apply nth_lt in A1; destruct k; cbn in A1; lia).
  assert (Hy : in_int y) by (rewrite Forall_forall in Hi; apply Hi; eapply nth_error_In; eassumption).
  assert (Hg : shape_ok g) by (rewrite Forall_forall in Hs; apply Hs; eapply nth_error_In; eassumption).
  pose proof (HF _ _ _ A1 A4) as Hfit.
  assert (Hax : ijk_str (Z.of_nat j) = axis j) by (destruct j as [|[|[|j]]]; [reflexivity..|lia]).
  assert (Hall : flags_fit_below k fl (length (k_locs k))) by (intros i l1 f1 _ E1 E2; eapply HF; eassumption).
  destruct g as [[gn gi] gp]. cbn [shape_ok] in Hg. unfold range_error. cbn [region fst snd].
  destruct l.
  - assert (f = FC) by (destruct f; cbn in Hfit; tauto). subst f.
    eexists. split; [reflexivity|]. rewrite Hax. split.
    + apply (tells_index_center k o n q fl _ j (gn, gi, gp) y (- gn) (gi + gp - 1)); try assumption; [|spell].
      intros z. cbn [dim_ok]. lia.
    + cbn [numbers_ok]. unfold in_int in *. lia.
  - eexists. split; [reflexivity|]. rewrite Hax. split.
    + apply (tells_index_half k o n q fl _ j (gn, gi, gp) y f (- gn - 1) (- gn) (gi + gp - 1) (gi + gp)); try assumption.
      3: { apply spells_word, spells_word, spells_num; [apply numeral_fmt; small_tac|].
           destruct f; cbn in Hfit; try contradiction; cbn [fl_offset].
           - apply (spells_word "(N)"). spell.
           - apply (spells_word "(P)"). spell. }
      all: intros z; cbn [dim_ok]; lia.
    + cbn [numbers_ok]. unfold in_int in *.
      assert (fl_offset f = 0 \/ fl_offset f = 1) by (destruct f; cbn; auto). lia.
Qed.
End Message.

(** ** Ranges and sizes *)

(** The last index of a range. *)
Definition lst (b s : Z) : res Z := let* e := iadd b s in isub e 1.
Lemma lst_int b s l : lst b s = Ok l -> in_int l.
Proof.
  unfold lst, iadd, isub. destruct (ck (b + s)) as [e| |]; [|discriminate..]. cbn [rbind]. unfold ck.
  destruct (in_intb (e - 1)) eqn:E; [|discriminate]. intros H. injection H as <-. unfold in_intb, in_int in *. zcmp. lia.
Qed.

Lemma range_text_inj d b l s d' b' l' s' r r' :
  small d -> small d' -> in_int b -> in_int b' -> in_int l -> in_int l' -> in_int s -> in_int s' -> stops r -> stops r' ->
  range_text d b l s ++ r = range_text d' b' l' s' ++ r' -> b = b' /\ s = s' /\ r = r'.
Proof.
  intros ? ? ? ? ? ? ? ? ? ? E. unfold range_text in E. repeat rewrite append_assoc in E. peel E.
  auto.
Qed.
Lemma size_text_inj d n i p d' n' i' p' r r' :
  small d -> small d' -> ints3 (n, i, p) -> ints3 (n', i', p') ->
  size_text d n i p ++ r = size_text d' n' i' p' ++ r' -> (n, i, p) = (n', i', p') /\ r = r'.
Proof.
  intros Hd Hd' (A & B & C) (A' & B' & C') E. unfold size_text in E. repeat rewrite append_assoc in E. peel E. auto.
Qed.

(** The dimensions of a range with the last index. *)
Definition range_line (x : Z * (Z * Z * Z)) : string := let '(d, (b, l, s)) := x in range_text d b l s.
Fixpoint range_lines (x : list (Z * (Z * Z * Z))) : string :=
  match x with [] => "" | [y] => range_line y | y :: x' => range_line y ++ "    " ++ range_lines x' end.
Definition with_last (x : Z * Z * Z) : Z * Z * Z := let '(b, s, l) := x in (b, l, s).
Lemma rdisp_lines chk r t : rdisp chk r = Ok t ->
  exists ls, length ls = length (range_dims r) /\ Forall in_int ls /\
    t = range_lines (combine [0; 1; 2] (map with_last (combine (range_dims r) ls))).
Proof.
  destruct r as [[b s]|[[b b'] [s s']]|[[b b' b''] [s s' s'']]]; cbn [rdisp]; intros H.
  - assert (E : rdisp1 chk (mkRange1 b s) = let* l := lst b s in Ok (range_text 0 b l s)) by (destruct chk; reflexivity).
    rewrite E in H. destruct (lst b s) as [l| |] eqn:L; [|discriminate..]. cbn [rbind] in H. injection H as <-.
    exists [l]. apply lst_int in L. conjs; [reflexivity|auto|reflexivity].
  - assert (E : rdisp2 chk (mkRange2 (b, b') (s, s')) =
      let* l := lst b s in let* l' := lst b' s' in Ok (range_text 0 b l s ++ "    " ++ range_text 1 b' l' s')) by (destruct chk; reflexivity).
    rewrite E in H. destruct (lst b s) as [l| |] eqn:L; [|discriminate..]. cbn [rbind] in H.
    destruct (lst b' s') as [l'| |] eqn:L'; [|discriminate..]. cbn [rbind] in H.
    assert (H' : range_text 0 b l s ++ "    " ++ range_text 1 b' l' s' = t) by congruence. clear H. subst t.
    exists [l; l']. apply lst_int in L, L'. conjs; [reflexivity|auto|reflexivity].
  - assert (E : rdisp3 chk (mkRange3 (mkI3 b b' b'') (mkI3 s s' s'')) =
      let* l := lst b s in let* l' := lst b' s' in let* l'' := lst b'' s'' in
      Ok (range_text 0 b l s ++ "    " ++ range_text 1 b' l' s' ++ "    " ++ range_text 2 b'' l'' s'')) by (destruct chk; reflexivity).
    rewrite E in H. destruct (lst b s) as [l| |] eqn:L; [|discriminate..]. cbn [rbind] in H.
    destruct (lst b' s') as [l'| |] eqn:L'; [|discriminate..]. cbn [rbind] in H.
    destruct (lst b'' s'') as [l''| |] eqn:L''; [|discriminate..]. cbn [rbind] in H.
    assert (H' : range_text 0 b l s ++ "    " ++ range_text 1 b' l' s' ++ "    " ++ range_text 2 b'' l'' s'' = t) by congruence. clear H. subst t.
    exists [l; l'; l'']. apply lst_int in L, L', L''. conjs; [reflexivity|auto|reflexivity].
Qed.

Lemma range_lines_inj : forall ds D D' ls ls',
  Forall small ds -> Forall ints2 D -> Forall ints2 D' -> Forall in_int ls -> Forall in_int ls' ->
  length ls = length D -> length ls' = length D' -> (length D <= length ds)%nat -> (length D' <= length ds)%nat ->
  range_lines (combine ds (map with_last (combine D ls))) = range_lines (combine ds (map with_last (combine D' ls'))) -> D = D'.
Proof.
  induction ds as [|d ds IH]; intros D D' ls ls' Hds HD HD' Hl Hl' L L' M M' E.
  { destruct D, D'; cbn in *; try lia; reflexivity. }
  inversion Hds; subst.
  destruct D as [|[b s] D], D' as [|[b' s'] D'], ls as [|l ls], ls' as [|l' ls']; try discriminate L; try discriminate L'.
  - reflexivity.
  - exfalso. cbn [combine map with_last] in E. destruct (combine ds (map with_last (combine D' ls'))); discriminate E.
  - exfalso. cbn [combine map with_last] in E. destruct (combine ds (map with_last (combine D ls))); discriminate E.
  - inversion HD as [|? ? [? ?] ?]; subst. inversion HD' as [|? ? [? ?] ?]; subst. inversion Hl; subst. inversion Hl'; subst.
    cbn [combine map with_last] in E. injection L as L. injection L' as L'. cbn [length] in M, M'.
    assert (Hrec : range_lines (combine ds (map with_last (combine D ls))) = range_lines (combine ds (map with_last (combine D' ls'))) -> D = D')
      by (apply IH; auto; lia).
    set (A := combine ds (map with_last (combine D ls))) in *. set (B := combine ds (map with_last (combine D' ls'))) in *.
    assert (LA : length A = length D) by (unfold A; rewrite combine_length, map_length, combine_length; lia).
    assert (LB : length B = length D') by (unfold B; rewrite combine_length, map_length, combine_length; lia).
    assert (E' : exists r r', stops r /\ stops r' /\ range_text d b l s ++ r = range_text d b' l' s' ++ r' /\
             (r = r' -> range_lines A = range_lines B /\ (A = [] <-> B = []))).
    { destruct A as [|x A], B as [|y B].
      - exists "", "". conjs; try exact I; [now rewrite !append_nil_r|auto]. intros _. split; [reflexivity|tauto].
      - exists "", ("    " ++ range_lines (y :: B)). conjs; try exact I; try reflexivity; [|discriminate].
        rewrite append_nil_r. exact E.
      - exists ("    " ++ range_lines (x :: A)), "". conjs; try exact I; try reflexivity; [|discriminate].
        rewrite append_nil_r. exact E.
      - exists ("    " ++ range_lines (x :: A)), ("    " ++ range_lines (y :: B)). conjs; try reflexivity; [exact E|].
        intros K. apply append_cancel in K. split; [exact K|split; discriminate]. }
    destruct E' as (r & r' & Hr & Hr' & E' & K). cbn [fst snd] in *.
    apply range_text_inj in E'; try assumption. destruct E' as (-> & -> & ->).
    destruct (K eq_refl) as [K1 _]. f_equal. now apply Hrec.
Qed.
Lemma rdisp_inj chk chk' r r' t :
  Forall ints2 (range_dims r) -> Forall ints2 (range_dims r') -> rdisp chk r = Ok t -> rdisp chk' r' = Ok t -> r = r'.
Proof.
  intros H H' E E'. apply rdisp_lines in E, E'. destruct E as (ls & L & Hl & ->). destruct E' as (ls' & L' & Hl' & E).
  assert (D : range_dims r = range_dims r').
  { eapply (range_lines_inj [0; 1; 2] _ _ ls ls'); try eassumption.
    - repeat constructor.
    - destruct r; cbn; lia.
    - destruct r'; cbn; lia. }
  destruct r as [[b s]|[[b b'] [s s']]|[[b b' b''] [s s' s'']]], r' as [[c u]|[[c c'] [u u']]|[[c c' c''] [u u' u'']]];
  cbn in D; congruence.
Qed.

Lemma sdisp_inj s s' : Forall ints3 (size_dims s) -> Forall ints3 (size_dims s') -> sdisp s = sdisp s' -> s = s'.
Proof.
  assert (Z0 : small 0) by reflexivity. assert (Z1 : small 1) by reflexivity. assert (Z2 : small 2) by reflexivity.
  destruct s as [[i n p]|[[i i'] [n n'] [p p']]|[[i i' i''] [n n' n''] [p p' p'']]],
           s' as [[a b c]|[[a a'] [b b'] [c c']]|[[a a' a''] [b b' b''] [c c' c'']]];
  cbn [size_dims sdisp]; unfold sdisp1, sdisp2, sdisp3, shape1, shape2, shape3; cbn [fst snd c0 c1 c2 s1_n s1_in s1_p s2_n s2_in s2_p s3_n s3_in s3_p];
  intros H H' E; repeat match goal with K : Forall _ (_ :: _) |- _ => inversion K; clear K; subst end;
  apply (f_equal (fun x => x ++ "")) in E; repeat rewrite append_assoc in E;
  repeat (first
   [ apply size_text_inj in E; [destruct E as [? E]|assumption..]
   | match type of E with "  " ++ _ = "  " ++ _ => apply append_cancel in E end ]); try discriminate E; congruence.
Qed.

(** ** Arrays *)

Lemma bracket_inj a : forall b r r', no_bracket a -> no_bracket b -> a ++ String "]" r = b ++ String "]" r' -> a = b /\ r = r'.
Proof.
  induction a as [|c a IH]; intros [|c' b] r r' Ha Hb E; cbn [append no_bracket] in *.
  - split; [reflexivity|]. now apply tail_inj in E.
  - exfalso. injection E as E _. destruct Hb as [Hb _]. now apply Hb.
  - exfalso. injection E as E _. destruct Ha as [Ha _]. now apply Ha.
  - injection E as -> E. destruct (IH b r r') as [-> ->]; tauto.
Qed.

(** What the class and the object are for [pdisp]. *)
Definition o_size (o : obj) : any_size :=
  match o with O1 o => AS1 (pd1_size o) | O2 o => AS2 (pd2_size o) | O3 o => AS3 (pd3_size o) end.
Definition loc_list (ls : list loc) : string :=
  match ls with
  | [a] => loc_str a | [a; b] => loc_str a ++ ", " ++ loc_str b
  | [a; b; c] => loc_str a ++ ", " ++ loc_str b ++ ", " ++ loc_str c
  | _ => ""
  end.
Definition matching (k : kind) (o : obj) : Prop := match k, o with K1 _ _, O1 _ | K2 _ _ _, O2 _ | K3 _ _ _ _, O3 _ => True | _, _ => False end.
Lemma pdisp_eq ty k o : matching k o ->
  pdisp ty k o = "dimension:" ++ fmt_i (Z.of_nat (length (k_locs k))) ++ "  location:[" ++ loc_list (k_locs k) ++
    String "]" ("  type:[" ++ ty ++ String "]" ("  N = " ++ fmt_u (k_N k) ++ "  " ++ sdisp (o_size o))).
Proof. destruct k, o; cbn [matching]; try contradiction; intros _; unfold pdisp; cbn [k_locs k_N loc_list length]; rewrite ?append_assoc; reflexivity. Qed.
Lemma loc_str_nb l : no_bracket (loc_str l).
Proof. destruct l; cbn; repeat split; discriminate. Qed.
Lemma nb_app a b : no_bracket a -> no_bracket b -> no_bracket (a ++ b).
Proof. induction a; cbn; tauto. Qed.
Lemma loc_list_nb ls : no_bracket (loc_list ls).
Proof.
  assert (C : no_bracket ", ") by (cbn; repeat split; discriminate).
  destruct ls as [|a [|b [|c [|d ls]]]]; cbn [loc_list]; try exact I; repeat apply nb_app; auto using loc_str_nb.
Qed.
Lemma loc_list_inj k k' : loc_list (k_locs k) = loc_list (k_locs k') -> k_locs k = k_locs k'.
Proof.
  destruct k as [N a|N a b|N a b c], k' as [N' a'|N' a' b'|N' a' b' c']; cbn [k_locs];
  repeat match goal with l : loc |- _ => destruct l end; intros E; try reflexivity; discriminate E.
Qed.
Lemma size_dims_o o : size_dims (o_size o) = m_size o.
Proof. destruct o; reflexivity. Qed.

Lemma pdisp_inj ty ty' k k' o o' :
  matching k o -> matching k' o' -> no_bracket ty -> no_bracket ty' -> in_uint (k_N k) -> in_uint (k_N k') ->
  Forall ints3 (m_size o) -> Forall ints3 (m_size o') ->
  pdisp ty k o = pdisp ty' k' o' -> k = k' /\ ty = ty' /\ m_size o = m_size o'.
Proof.
  intros M M' T T' N N' S S' E. rewrite !pdisp_eq in E by assumption. apply append_cancel in E.
  assert (L : forall k, small (Z.of_nat (length (k_locs k)))) by (intros []; reflexivity).
  apply fmt_app_inj in E; [|apply L..|reflexivity|reflexivity]. destruct E as [_ E]. apply append_cancel in E.
  apply bracket_inj in E; [|apply loc_list_nb..]. destruct E as [EL E]. apply append_cancel in E.
  apply bracket_inj in E; [|assumption..]. destruct E as [ET E]. apply append_cancel in E.
  rewrite !fmt_u_i in E by (apply N || apply N'). apply fmt_app_inj in E; [|now apply in_uint_small..|reflexivity|reflexivity].
  destruct E as [EN E]. apply append_cancel in E. apply loc_list_inj in EL.
  assert (ES : o_size o = o_size o') by (apply sdisp_inj; [now rewrite size_dims_o..|exact E]).
  split; [|split; [exact ET|rewrite <- !size_dims_o; now f_equal]].
  clear - EL EN. destruct k, k'; cbn in *; congruence.
Qed.
Lemma pdisp0_inj ty ty' N N' : no_bracket ty -> no_bracket ty' -> in_uint N -> in_uint N' ->
  pdisp0 ty N = pdisp0 ty' N' -> ty = ty' /\ N = N'.
Proof.
  intros T T' HN HN' E. unfold pdisp0 in E. do 3 apply append_cancel in E.
  rewrite !(fun x => eq_refl : "]" ++ x = String "]" x) in E.
  apply bracket_inj in E; [|assumption..]. destruct E as [ET E]. apply append_cancel in E.
  rewrite !fmt_u_i in E by (apply HN || apply HN'). split; [exact ET|]. apply fmt_inj in E; [exact E|now apply in_uint_small..].
Qed.
Lemma pdisp0_other ty ty' N k o : matching k o -> pdisp0 ty N <> pdisp ty' k o.
Proof.
  intros M E. rewrite pdisp_eq in E by assumption. unfold pdisp0 in E. apply append_cancel in E.
  apply fmt_app_inj in E; [|reflexivity|destruct k; reflexivity|reflexivity|reflexivity]. destruct E as [E _].
  destruct k; discriminate E.
Qed.

Section Arrays.
Context {V : Type}.
Lemma array_text F F' (h h' : list (op V)) w w' aw aw' a a' k k' o o' ty ty' :
  after F h w aw -> find w a = Some (k, o) -> after F' h' w' aw' -> find w' a' = Some (k', o') ->
  no_bracket ty -> no_bracket ty' -> pdisp ty k o = pdisp ty' k' o' -> k = k' /\ ty = ty' /\ m_size o = m_size o'.
Proof.
  intros HA Hf HA' Hf' T T'.
  destruct (after_find _ _ _ _ _ _ _ HA Hf) as (x & own & lk & Ha & HN & Hr & _).
  destruct (after_find _ _ _ _ _ _ _ HA' Hf') as (x' & own' & lk' & Ha' & HN' & Hr' & _).
  assert (G : forall o, Forall shape_ok (m_size o) -> Forall ints3 (m_size o)).
  { intros o1. apply Forall_impl. intros [[? ?] ?]. cbn. unfold in_int. lia. }
  apply pdisp_inj; auto.
  - exact (rep_class _ _ _ _ _ Hr).
  - exact (rep_class _ _ _ _ _ Hr').
  - unfold kok in HN. change UINT_MOD with 4294967296 in *. unfold in_uint. lia.
  - unfold kok in HN'. unfold in_uint. lia.
  - apply G. exact (rep_shape_ok _ _ _ _ _ Hr).
  - apply G. exact (rep_shape_ok _ _ _ _ _ Hr').
Qed.
End Arrays.

(** ** disp_data *)

(** Texts that are alike up to their elements. *)
Section Alike.
Context {V : Type} (ok : V -> Prop).
Inductive alike : list (tok V) -> list (tok V) -> Prop :=
| alike_nil : alike [] []
| alike_elem v v' l l' : ok v -> ok v' -> alike l l' -> alike (TVal v :: TStr ", " :: l) (TVal v' :: TStr ", " :: l')
| alike_same t l l' : alike l l' -> alike (t :: l) (t :: l').

Lemma alike_app a a' b b' : alike a a' -> alike b b' -> alike (a ++ b)%list (a' ++ b')%list.
Proof. intros Ha Hb. induction Ha; cbn; [assumption| |]; constructor; assumption. Qed.
Lemma alike_refl a : alike a a.
Proof. induction a; constructor; assumption. Qed.
Lemma alike_flat {A} (f g : A -> list (tok V)) l : (forall x, In x l -> alike (f x) (g x)) -> alike (flat_map f l) (flat_map g l).
Proof.
  induction l as [|x l IH]; intros H; cbn; [constructor|]. apply alike_app; [apply H; now left|].
  apply IH. intros y Hy. apply H. now right.
Qed.
Lemma display_alike (val val' : Z -> list Z -> V) k B :
  (forall n q, 0 <= n < k_N k -> in_box B q -> ok (val n q) /\ ok (val' n q)) ->
  alike (display val k B) (display val' k B).
Proof.
  intros H.
  assert (G : forall n q, 0 <= n < k_N k -> in_box B q -> alike (listed val n q) (listed val' n q)).
  { intros n q Hn Hq. destruct (H n q Hn Hq). unfold listed. constructor; [assumption..|constructor]. }
  clear H. unfold display.
  destruct k as [N a|N a b|N a b c], B as [|f [|g [|h [|? ?]]]]; try apply alike_refl; cbn [k_N] in G.
  - apply alike_flat. intros x Hx. apply alike_app; [|apply alike_refl]. apply alike_flat. intros n Hn.
    apply in_zrange in Hx, Hn. apply G; [assumption|]. repeat constructor; apply Hx.
  - apply alike_flat. intros n Hn. apply alike_app; [apply alike_refl|]. apply alike_app; [|apply alike_refl].
    apply alike_flat. intros x Hx. apply alike_app; [|apply alike_refl]. apply alike_flat. intros y Hy.
    apply in_zrange in Hx, Hn, Hy. apply G; [assumption|]. repeat constructor; apply Hx || apply Hy.
  - apply alike_flat. intros n Hn. apply alike_app; [apply alike_refl|]. apply alike_app; [|apply alike_refl].
    apply alike_flat. intros x Hx. apply alike_app; [apply alike_refl|]. apply alike_flat. intros y Hy.
    apply alike_app; [|apply alike_refl]. apply alike_flat. intros z Hz.
    apply in_zrange in Hx, Hn, Hy, Hz. apply G; [assumption|]. repeat constructor; apply Hx || apply Hy || apply Hz.
Qed.

End Alike.

Lemma render_alike l l' : alike in_int l l' -> render l = render l' -> l = l'.
Proof.
  induction 1 as [|v v' l l' Hv Hv' H IH|t l l' H IH]; intros E; [reflexivity| |].
  - cbn [render fold_right tok_text] in E. fold (render l) in E. fold (render l') in E.
    apply fmt_app_inj in E; [|now apply in_int_small..|reflexivity|reflexivity]. destruct E as [-> E].
    apply append_cancel in E. now rewrite (IH E).
  - cbn [render fold_right] in E. fold (render l) in E. fold (render l') in E. apply append_cancel in E. now rewrite (IH E).
Qed.

Lemma flat_map_parts {A B} (f g : A -> list B) l :
  (forall x, length (f x) = length (g x)) -> flat_map f l = flat_map g l -> forall x, In x l -> f x = g x.
Proof.
  intros HL. induction l as [|y l IH]; cbn; intros E x Hx; [contradiction|].
  assert (E' : f y = g y /\ flat_map f l = flat_map g l).
  { split; [apply (f_equal (firstn (length (f y)))) in E|apply (f_equal (skipn (length (f y)))) in E].
    - rewrite firstn_app, firstn_all, Nat.sub_diag in E. cbn in E. rewrite app_nil_r in E.
      rewrite E, HL, firstn_app, firstn_all, Nat.sub_diag. cbn. apply app_nil_r.
    - rewrite skipn_app, skipn_all, Nat.sub_diag in E. cbn in E. rewrite HL, skipn_app, skipn_all, Nat.sub_diag in E. exact E. }
  destruct E' as [E1 E2]. destruct Hx as [<-|Hx]; [exact E1|]. now apply IH.
Qed.
Lemma display_inj {V} (val val' : Z -> list Z -> V) k B :
  length B = length (k_locs k) -> display val k B = display val' k B ->
  forall n q, 0 <= n < k_N k -> in_box B q -> val n q = val' n q.
Proof.
  intros L E n q Hn Hq. apply (f_equal values) in E. rewrite !display_values in E by assumption.
  apply in_zrange in Hn. apply in_points in Hq.
  destruct k as [N a|N a b|N a b c].
  - apply flat_map_parts with (x := q) in E; [|intros; now rewrite !map_length|assumption].
    rewrite map_ext_in_iff in E. now apply E.
  - apply flat_map_parts with (x := n) in E; [|intros; now rewrite !map_length|assumption].
    rewrite map_ext_in_iff in E. now apply E.
  - apply flat_map_parts with (x := n) in E; [|intros; now rewrite !map_length|assumption].
    rewrite map_ext_in_iff in E. now apply E.
Qed.

Lemma data_text F F' (h h' : list (op Z)) w w' aw aw' a a' k o o' val val' chk chk' out out' :
  after F h w aw -> healthy aw a -> find w a = Some (k, o) -> o_data o <> Null ->
  after F' h' w' aw' -> healthy aw' a' -> find w' a' = Some (k, o') -> o_data o' <> Null ->
  m_size o = m_size o' ->
  (forall n q, 0 <= n < k_N k -> in_box (slot_box (m_size o) (k_locs k)) q ->
     reads w k o n q (Some (val n q)) /\ in_int (val n q) /\ reads w' k o' n q (Some (val' n q)) /\ in_int (val' n q)) ->
  m_disp chk k (heap w) o [] = Ret out tt -> m_disp chk' k (heap w') o' [] = Ret out' tt ->
  render out = render out' ->
  forall n q, 0 <= n < k_N k -> in_box (slot_box (m_size o) (k_locs k)) q -> val n q = val' n q.
Proof.
  intros HA Hh Hf Hd HA' Hh' Hf' Hd' HS Hv E E' ER.
  rewrite (disp_text F h w aw a k o val chk [] HA Hh Hf Hd) in E by (intros; now apply Hv).
  rewrite (disp_text F' h' w' aw' a' k o' val' chk' [] HA' Hh' Hf' Hd') in E'
    by (intros n q H1 H2; rewrite <- HS in H2; now apply Hv).
  cbn [app] in E, E'. injection E as <-. injection E' as <-. rewrite <- HS in ER.
  apply render_alike in ER; [|apply display_alike; intros n q H1 H2; split; now apply Hv].
  apply display_inj; [|exact ER].
  destruct (after_find _ _ _ _ _ _ _ HA Hf) as (x & own & lk & Ha & HN & Hr & _).
  apply slot_box_len, (rep_class _ _ _ _ _ Hr).
Qed.
