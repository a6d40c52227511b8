(** Programs of exec_except. *)

From Coq Require Import ZArith Ascii String List Bool Lia.
From Verif Require Import Base M_Flags M_Loop M_Bytes M_TecZone M_TecFile M_Scan M_Read M_Heap M_World M_Client M_Texts M_Except
  Spec Spec_Loop Spec_Array Spec_Log Spec_Hist Spec_Reach Spec_Texts Spec_Except
  L_Base L_Loop L_Text L_Scan L_World L_Sim L_Access L_Rep L_Kind L_Disp L_Texts.
Import ListNotations.
Open Scope string_scope.
Open Scope Z_scope.

Section Run.
Context {V : Type}.
Variable F : nat -> bool.
Implicit Types (w : world V) (aw : aworld V) (h : list (op V)) (s : stmt V) (b : list (stmt V)).

Lemma flag_error_std d ls fl e : flag_error d ls fl = Some e -> is_std e = true.
Proof.
  revert d fl. induction ls as [|l ls IH]; intros d [|f fl] H; try discriminate H. cbn in H.
  destruct l, f; try (injection H as <-; reflexivity); now apply IH in H.
Qed.
Lemma index_error_std d ls gs q fl e : index_error d ls gs q fl = Some e -> is_std e = true.
Proof.
  revert d gs q fl. induction ls as [|l ls IH]; intros d [|g gs] [|x q] [|f fl] H; try discriminate H. cbn in H.
  match type of H with (if ?c then _ else _) = _ => destruct c end; [now apply IH in H|]. injection H as <-. now destruct l.
Qed.
Lemma access_error_std N ls gs n q fl e : access_error N ls gs n q fl = Some e -> is_std e = true.
Proof.
  unfold access_error. destruct (N <=? n); [intros [= <-]; reflexivity|].
  destruct (flag_error 0 ls fl) eqn:E; [intros [= <-]; now apply flag_error_std in E|apply index_error_std].
Qed.
Lemma a_alloc_std t k gs a n e : a_alloc F t k gs = (n, a, RExn e : result V) -> is_std e = true.
Proof.
  unfold a_alloc. destruct (bad_dim 0 gs); [intros [= _ _ <-]; reflexivity|]. destruct (_ =? 0); [discriminate|].
  destruct (first_fail F t _) as [[|]|]; intros H; try discriminate H; injection H as _ _ <-; reflexivity.
Qed.
Lemma copy_error_std ls same R r A a e : copy_error ls same R r A a = Some e -> is_std e = true.
Proof. unfold copy_error. destruct (negb _); [intros [= <-]; reflexivity|]. destruct (_ && _); [intros [= <-]; reflexivity|discriminate]. Qed.
Lemma a_copy_std aw d a1 R r A a e : snd (a_copy aw d a1 R r A a) = RExn e -> is_std e = true.
Proof.
  unfold a_copy. destruct (afind aw d) as [[k ad]|]; [|discriminate]. destruct (afind aw a1) as [[k' as_]|]; [|discriminate].
  destruct (copy_error _ _ _ _ _ _) eqn:E; [intros [= <-]; now apply copy_error_std in E|]. destruct ad, as_; discriminate.
Qed.

Lemma astep_std aw c e : snd (astep F aw c) = RExn e -> is_std e = true.
Proof.
  destruct c; cbn [astep]; try (apply a_copy_std).
  - destruct (_ =? 0); [intros [= <-]; reflexivity|discriminate].
  - destruct (k_N k =? 0); [intros [= <-]; reflexivity|]. destruct (a_alloc F (a_tick aw) k gs) as [[t a] r] eqn:E.
    destruct r; intros H; try discriminate H; injection H as <-; now apply a_alloc_std in E.
  - destruct (afind aw a) as [[k [|gs' f|gs' nb]]|]; try (intros [= <-]; reflexivity).
    destruct (a_alloc F (a_tick aw) k gs) as [[t x] r] eqn:E. cbn [snd]. intros ->. now apply a_alloc_std in E.
  - destruct (bad_dim 0 gs); [intros [= <-]; reflexivity|]. destruct (afind aw a) as [[k [|gs' f|gs' nb]]|]; try (intros [= <-]; reflexivity); try discriminate.
    + destruct (a_alloc F (a_tick aw) k gs) as [[t x] r] eqn:E. cbn [snd]. intros ->. now apply a_alloc_std in E.
    + destruct (a_alloc F (a_tick aw) k gs) as [[t x] r] eqn:E. cbn [snd]. intros ->. now apply a_alloc_std in E.
  - destruct (afind aw a) as [[k [|gs' f|gs' nb]]|]; try (intros [= <-]; reflexivity); discriminate.
  - discriminate.
  - destruct (afind aw a) as [[k x]|]; discriminate.
  - destruct (afind aw a) as [[k [|gs' f|gs' nb]]|]; try (intros [= <-]; reflexivity); try discriminate;
      destruct (access_error _ _ _ _ _ _) eqn:E; try discriminate; intros [= <-]; now apply access_error_std in E.
  - destruct (afind aw a) as [[k [|gs' f|gs' nb]]|]; try (intros [= <-]; reflexivity); try discriminate;
      destruct (access_error _ _ _ _ _ _) eqn:E; try discriminate; intros [= <-]; now apply access_error_std in E.
  - destruct (afind aw a) as [[k x]|]; [|discriminate]. destruct (_ <=? _); [intros [= <-]; reflexivity|]. destruct x; discriminate.
  - destruct (afind aw a) as [[k x]|]; [|discriminate]. destruct (_ <=? _); [intros [= <-]; reflexivity|]. destruct x; discriminate.
  - unfold a_read_plt. destruct (afind aw a) as [[k x]|]; [|discriminate].
    repeat match goal with
    | |- snd (if ?c then _ else _) = _ -> _ => destruct c
    | |- snd (match ?c with _ => _ end) = _ -> _ => destruct c
    | |- snd (_, RExn _) = _ -> _ => intros [= <-]; reflexivity
    | |- snd (_, RDone) = _ -> _ => discriminate
    end.
Qed.

(** One statement. *)
Lemma stmt_ok h w aw s o e :
  after F h w aw -> legal aw (stmt_op s) -> (forall print p, s = Show print p -> snd (astep F aw (stmt_op s)) <> RVal None) ->
  exists w', after F (h ++ [stmt_op s]) w' (fst (astep F aw (stmt_op s))) /\
    run_stmt true s (Desk w o e) =
      match snd (astep F aw (stmt_op s)) with
      | RExn x => Thr (Desk w' o e) x
      | r => Ret (Desk w' (o ++ shown s r) e) tt
      end.
Proof.
  intros HA HL HS. destruct (after_step F h w aw _ HA HL) as (w' & E & HA'). exists w'. split; [exact HA'|].
  destruct s as [c|print p]; cbn [run_stmt stmt_op shown] in *.
  - unfold bind, quiet, call. cbn [d_own d_out d_err]. rewrite E. destruct (snd (astep F aw c)); rewrite ?append_nil_r; reflexivity.
  - specialize (HS print p eq_refl). unfold get, bind, quiet, call. cbn [d_own d_out d_err]. rewrite E.
    destruct (snd (astep F aw _)) as [|x|gs|[v|]] eqn:R; try reflexivity.
    + exfalso. cbn [astep] in R. unfold legal, legal_access, exists_arr in HL.
      destruct (afind aw (p_arr p)) as [[k [|gs f|gs nb]]|] eqn:Ea; [discriminate R| | |exact HL].
      * destruct (access_error _ _ _ _ _ _); discriminate R.
      * cbn [a_shape] in R. destruct (access_error _ _ _ _ _ _) eqn:Ee; [discriminate R|]. tauto.
    + exfalso. cbn [astep] in R. destruct (afind aw (p_arr p)) as [[k [|gs' f|gs' nb]]|] eqn:Ea; try discriminate R.
      * destruct (access_error _ _ _ _ _ _); discriminate R.
      * destruct (access_error _ _ _ _ _ _); discriminate R.
    + now destruct HS.
Qed.

Lemma block_ok b : forall h w aw o e,
  after F h w aw -> legal_block F aw b ->
  let '(aw', h', t, x) := a_block F aw b in
  exists w', after F (h ++ h') w' aw' /\
    run b (run_stmt true) (Desk w o e) = match x with None => Ret (Desk w' (o ++ t) e) tt | Some x => Thr (Desk w' (o ++ t) e) x end /\
    match x with Some x => is_std x = true | None => True end.
Proof.
  induction b as [|s b IH]; intros h w aw o e HA HL; cbn [a_block legal_block run] in *.
  - exists w. rewrite app_nil_r, append_nil_r. split; [exact HA|]. split; [reflexivity|exact I].
  - destruct HL as (H1 & H2 & H3). destruct (stmt_ok h w aw s o e HA H1 H2) as (w' & HA' & E).
    pose proof (astep_std aw (stmt_op s)) as Hstd.
    destruct (astep F aw (stmt_op s)) as [aw1 r] eqn:Ea. cbn [fst snd] in *. unfold bind. rewrite E.
    destruct r as [|x|gs|v].
    2:{ exists w'. rewrite append_nil_r. split; [exact HA'|]. split; [reflexivity|]. now apply Hstd. }
    + specialize (IH _ w' aw1 (o ++ shown s RDone) e HA' H3).
      destruct (a_block F aw1 b) as [[[aw2 h2] t2] x2]; destruct IH as (w2 & HA2 & E2 & H4); exists w2;
      rewrite <- app_assoc in HA2; (split; [exact HA2|]); (split; [|exact H4]); rewrite E2, append_assoc; reflexivity.
    + specialize (IH _ w' aw1 (o ++ shown s (RShape gs)) e HA' H3).
      destruct (a_block F aw1 b) as [[[aw2 h2] t2] x2]; destruct IH as (w2 & HA2 & E2 & H4); exists w2;
      rewrite <- app_assoc in HA2; (split; [exact HA2|]); (split; [|exact H4]); rewrite E2, append_assoc; reflexivity.
    + specialize (IH _ w' aw1 (o ++ shown s (RVal v)) e HA' H3).
      destruct (a_block F aw1 b) as [[[aw2 h2] t2] x2]; destruct IH as (w2 & HA2 & E2 & H4); exists w2;
      rewrite <- app_assoc in HA2; (split; [exact HA2|]); (split; [|exact H4]); rewrite E2, append_assoc; reflexivity.
Qed.

Lemma all_digits_app u v : all_digits (u ++ v) = all_digits u && all_digits v.
Proof. induction u as [|c u IH]; [reflexivity|]. cbn. rewrite IH. apply andb_assoc. Qed.
Lemma all_digits_pad j : forall z, 0 <= z -> all_digits (show_pad j z) = true.
Proof.
  induction j as [|j IH]; intros z Hz; [reflexivity|]. cbn [show_pad]. rewrite all_digits_app, IH by (apply Z.div_pos; lia). cbn [all_digits].
  pose proof (Z.mod_pos_bound z 10 ltac:(lia)). now rewrite is_digit_digit by lia.
Qed.
Lemma pad_first j : forall z, 0 <= z -> first_is (fun c => 48 <= c <= 57) (show_pad (S j) z).
Proof.
  induction j as [|j IH]; intros z Hz.
  - cbn [show_pad append first_is]. pose proof (Z.mod_pos_bound z 10 ltac:(lia)). rewrite b2z_digit by lia. lia.
  - remember (S j) as i. cbn [show_pad]. apply first_app, IH, Z.div_pos; lia.
Qed.
Lemma pad_ten z : 0 <= z < 2147483648 -> ten_digits z (show_pad 10 z).
Proof.
  intros H. split; [apply all_digits_pad; lia|]. split; [apply show_pad_length|]. unfold decimal.
  pose proof (show_pad_digits 10 z "" 0 0 ltac:(lia)) as D. rewrite append_nil_r in D.
  destruct (digit_not_ws (show_pad 10 z)) as [-> ->]; [apply (pad_first 9); lia|]. rewrite D. cbn [digits Nat.add].
  change (10 ^ Z.of_nat 10) with 10000000000. rewrite Z.mod_small by lia. cbn [Nat.eqb]. f_equal.
Qed.

Lemma session_cons text time z b items d :
  session true text ((time, z, b) :: items) d =
  match exec_except text time z (run b (run_stmt true)) d with
  | Ret d' _ => session (V := V) true text items d'
  | Thr d' e => Thr d' e
  | Undef => Undef
  end.
Proof. reflexivity. Qed.
Lemma except_ret {T} text time z (m : M (desk T) unit) d u o e :
  m d = Ret (Desk u o e) tt -> exec_except text time z m d = Ret (Desk u (o ++ stamp time z ++ "no exception" ++ NL) e) tt.
Proof. intros E. unfold exec_except. now rewrite E. Qed.
Lemma except_thr {T} text time z (m : M (desk T) unit) d u o e x :
  m d = Thr (Desk u o e) x -> is_std x = true ->
  exec_except text time z m d = Ret (Desk u (o ++ stamp time z ++ "with exception" ++ NL) (e ++ stamp time z ++ text x ++ NL)) tt.
Proof. intros E H. unfold exec_except. now rewrite E, H. Qed.

Lemma session_from items : forall h w aw o e text,
  after F h w aw -> legal_session F aw (map snd items) -> Forall (fun '(_, z, _) => 0 <= z < 2147483648) items ->
  let '(aw', h', rs) := a_session F aw (map snd items) in
  exists w' o' e', after F (h ++ h') w' aw' /\ session true text items (Desk w o e) = Ret (Desk w' (o ++ o') (e ++ e')) tt /\
    writes text (map fst items) rs o' e'.
Proof.
  induction items as [|[[time z] b] items IH]; intros h w aw o e text HA HL HZ; cbn [map snd fst a_session legal_session] in *.
  - exists w, "", "". rewrite app_nil_r, !append_nil_r. split; [exact HA|]. split; [reflexivity|constructor].
  - destruct HL as [HL HL']. inversion HZ as [|? ? Hz HZ']; subst. pose proof (pad_ten z Hz) as Hd.
    pose proof (block_ok b h w aw o e HA HL) as HB. destruct (a_block F aw b) as [[[aw1 h1] t] x]. cbn [fst snd] in *.
    destruct HB as (w1 & HA1 & E1 & Hstd).
    rewrite session_cons. destruct x as [x|].
    + rewrite (except_thr text time z _ _ _ _ _ _ E1 Hstd).
      specialize (IH _ w1 aw1 ((o ++ t) ++ stamp time z ++ "with exception" ++ NL) (e ++ stamp time z ++ text x ++ NL) text HA1 HL' HZ').
      destruct (a_session F aw1 (map snd items)) as [[aw2 h2] rs]. destruct IH as (w2 & o2 & e2 & HA2 & E2 & HW).
      rewrite <- app_assoc in HA2. exists w2. do 2 eexists. split; [exact HA2|]. split.
      2:{ apply (writes_thrown text time z _ t x (map fst items) rs o2 e2 Hd HW). }
      rewrite E2. unfold stamp. rewrite !append_assoc. reflexivity.
    + rewrite (except_ret text time z _ _ _ _ _ E1).
      specialize (IH _ w1 aw1 ((o ++ t) ++ stamp time z ++ "no exception" ++ NL) e text HA1 HL' HZ').
      destruct (a_session F aw1 (map snd items)) as [[aw2 h2] rs]. destruct IH as (w2 & o2 & e2 & HA2 & E2 & HW).
      rewrite <- app_assoc in HA2. exists w2. do 2 eexists. split; [exact HA2|]. split.
      2:{ apply (writes_done text time z _ t (map fst items) rs o2 e2 Hd HW). }
      rewrite E2. unfold stamp. rewrite !append_assoc. reflexivity.
Qed.

Lemma session_ok items text :
  legal_session F a_start (map snd items) -> Forall (fun '(_, z, _) => 0 <= z < 2147483648) items ->
  let '(aw, h, rs) := a_session F a_start (map snd items) in
  exists w o e, session true text items (Desk (start F) "" "") = Ret (Desk w o e) tt /\ after F h w aw /\ writes text (map fst items) rs o e.
Proof.
  intros HL HZ. assert (HA : after F [] (start F) (a_start (V := V))).
  { split; [exact I|]. split; [reflexivity|]. now exists []. }
  pose proof (session_from items [] (start F) a_start "" "" text HA HL HZ) as H.
  destruct (a_session F a_start (map snd items)) as [[aw h] rs]. destruct H as (w & o & e & H1 & H2 & H3). exists w, o, e. auto.
Qed.


(** ** Calls that throw change nothing, unless memory runs out *)

Lemma put_same aw a x : afind aw a = Some x -> put_nth (arrs aw) a (Some x) = arrs aw.
Proof.
  unfold afind. destruct aw as [t l as_]. cbn [arrs]. revert a. induction as_ as [|y as_ IH]; intros [|a] H; try discriminate H; cbn in *.
  - destruct y; [|discriminate H]. injection H as ->. reflexivity.
  - f_equal. now apply IH.
Qed.

Lemma a_alloc_exn t k gs n a e : a_alloc F t k gs = (n, a, RExn e : result V) -> e <> ENoMem -> n = O /\ a = AEmpty.
Proof.
  unfold a_alloc. destruct (bad_dim 0 gs); [intros [= <- <- _]; auto|]. destruct (_ =? 0); [discriminate|].
  destruct (first_fail F t _) as [[|]|]; intros H Hn; try discriminate H; injection H as _ _ <-; now destruct Hn.
Qed.

Lemma a_copy_thrown aw d a1 R r A a e : snd (a_copy aw d a1 R r A a) = RExn e -> fst (a_copy aw d a1 R r A a) = aw.
Proof.
  unfold a_copy. destruct (afind aw d) as [[k ad]|]; [|discriminate]. destruct (afind aw a1) as [[k' as_]|]; [|discriminate].
  destruct (copy_error _ _ _ _ _ _) eqn:E; [reflexivity|]. destruct ad, as_; discriminate.
Qed.

Lemma thrown_arrs aw c e :
  legal aw c -> snd (astep F aw c) = RExn e -> e <> ENoMem -> creates c = false -> arrs (fst (astep F aw c)) = arrs aw.
Proof.
  intros HL HR HM HC. destruct c; cbn [creates] in HC; try discriminate HC; cbn [astep] in *; try (now rewrite (a_copy_thrown _ _ _ _ _ _ _ _ HR)).
  - destruct (afind aw a) as [[k [|gs' f|gs' nb]]|] eqn:Ea; try reflexivity.
    destruct (a_alloc F (a_tick aw) k gs) as [[t x] r] eqn:E. cbn [fst snd] in *. subst r. destruct (a_alloc_exn _ _ _ _ _ _ E HM) as [-> ->].
    cbn [arrs]. now apply put_same.
  - destruct (bad_dim 0 gs) as [d|] eqn:Eb; [reflexivity|]. destruct (afind aw a) as [[k [|gs' f|gs' nb]]|] eqn:Ea; try reflexivity.
    + destruct (a_alloc F (a_tick aw) k gs) as [[t x] r] eqn:E. cbn [fst snd] in *. subst r. exfalso. revert E. unfold a_alloc. rewrite Eb.
      destruct (_ =? 0); [discriminate|]. destruct (first_fail F (a_tick aw) _) as [[|]|]; intros E; try discriminate E; injection E as _ _ <-; now destruct HM.
    + destruct (a_alloc F (a_tick aw) k gs) as [[t x] r] eqn:E. cbn [fst snd] in *. subst r. exfalso. revert E. unfold a_alloc. rewrite Eb.
      destruct (_ =? 0); [discriminate|]. destruct (first_fail F (a_tick aw) _) as [[|]|]; intros E; try discriminate E; injection E as _ _ <-; now destruct HM.
  - destruct (afind aw a) as [[k [|gs' f|gs' nb]]|]; try reflexivity; discriminate HR.
  - discriminate HR.
  - destruct (afind aw a) as [[k x]|]; discriminate HR.
  - destruct (afind aw a) as [[k [|gs' f|gs' nb]]|]; try reflexivity; destruct (access_error _ _ _ _ _ _); try discriminate HR; reflexivity.
  - destruct (afind aw a) as [[k [|gs' f|gs' nb]]|]; try reflexivity; destruct (access_error _ _ _ _ _ _); try discriminate HR; reflexivity.
  - destruct (afind aw a) as [[k x]|]; [|discriminate HR]. destruct (_ <=? _); [reflexivity|]. destruct x; discriminate HR.
  - destruct (afind aw a) as [[k x]|]; [|discriminate HR]. destruct (_ <=? _); [reflexivity|]. destruct x; discriminate HR.
  - revert HR. unfold a_read_plt. destruct (afind aw a) as [[k x]|]; [|discriminate].
    repeat match goal with
    | |- snd (if ?c then _ else _) = _ -> _ => destruct c
    | |- snd (match ?c with _ => _ end) = _ -> _ => destruct c
    | |- snd (_, RExn _) = _ -> _ => reflexivity
    | |- snd (_, RDone) = _ -> _ => discriminate
    end.
Qed.

Lemma arrs_find aw aw' : arrs aw = arrs aw' -> forall a, afind aw a = afind aw' a.
Proof. intros E a. unfold afind. now rewrite E. Qed.

Lemma legal_arrs aw aw' c : arrs aw = arrs aw' -> legal aw c -> legal aw' c.
Proof.
  intros E. pose proof (arrs_find _ _ E) as Hf.
  assert (X : forall a P, exists_arr aw a P = exists_arr aw' a P) by (intros a P; unfold exists_arr; now rewrite Hf).
  destruct c; cbn [legal]; unfold legal_access, legal_data, legal_copy, legal_read_plt; rewrite ?X; try tauto.
  all: unfold exists_arr; rewrite ?Hf; try tauto.
Qed.

Lemma looks_same aw aw' c : arrs aw = arrs aw' -> looks c = true -> snd (astep F aw c) = snd (astep F aw' c).
Proof.
  intros E Hc. pose proof (arrs_find _ _ E) as Hf. destruct c; try discriminate Hc; cbn [astep]; rewrite Hf;
    destruct (afind aw' a) as [[k [|gs' f|gs' nb]]|]; try reflexivity;
    try (destruct (access_error _ _ _ _ _ _); reflexivity); destruct (_ <=? _); reflexivity.
Qed.

Lemma thrown_same h w aw c w' e c2 :
  after F h w aw -> legal aw c -> step true w c = Some (w', RExn e) -> e <> ENoMem -> creates c = false ->
  legal aw c2 -> looks c2 = true ->
  exists w1 w2 r, step true w c2 = Some (w1, r) /\ step true w' c2 = Some (w2, r).
Proof.
  intros HA HL Hs HM HC HL2 HK. destruct (after_step F h w aw c HA HL) as (w1 & E & HA'). rewrite Hs in E. injection E as <- E.
  pose proof (thrown_arrs aw c e HL (eq_sym E) HM HC) as Ha.
  destruct (after_step F _ _ _ c2 HA HL2) as (w1 & E1 & _).
  destruct (after_step F _ _ _ c2 HA' (legal_arrs _ _ _ (eq_sym Ha) HL2)) as (w2 & E2 & _).
  rewrite (looks_same _ _ _ Ha HK) in E2. eauto.
Qed.

(** ** With enough memory only the calls that returned count *)

Hypothesis enough : forall t, F t = false.

Lemma first_fail_none t c : first_fail F t c = None.
Proof. revert t. induction c as [|c IH]; intros t; [reflexivity|]. cbn. now rewrite enough, IH. Qed.

Lemma alloc_same t t' k gs : a_alloc (V := V) F t k gs = a_alloc F t' k gs.
Proof. unfold a_alloc. now rewrite !first_fail_none. Qed.

Lemma alloc_enough t k gs : snd (a_alloc (V := V) F t k gs) <> RExn ENoMem.
Proof. unfold a_alloc. rewrite first_fail_none. destruct (bad_dim 0 gs); [discriminate|]. destruct (_ =? 0); discriminate. Qed.

Lemma step_same aw aw' c : arrs aw = arrs aw' ->
  snd (astep F aw c) = snd (astep F aw' c) /\ arrs (fst (astep F aw c)) = arrs (fst (astep F aw' c)).
Proof.
  intros E. pose proof (arrs_find _ _ E) as Hf.
  assert (X : forall d a1 R r A a, snd (a_copy aw d a1 R r A a) = snd (a_copy aw' d a1 R r A a) /\ arrs (fst (a_copy aw d a1 R r A a)) = arrs (fst (a_copy aw' d a1 R r A a))).
  { intros. unfold a_copy. rewrite !Hf. destruct (afind aw' d) as [[k ad]|]; [|auto]. destruct (afind aw' a1) as [[k' as_]|]; [|auto].
    destruct (copy_error _ _ _ _ _ _); [auto|]. destruct ad, as_; cbn; rewrite ?E; auto. }
  destruct c; cbn [astep]; try apply X.
  - destruct (_ =? 0); cbn; now rewrite E.
  - destruct (k_N k =? 0); [cbn; now rewrite E|]. rewrite (alloc_same (a_tick aw') (a_tick aw)). destruct (a_alloc F (a_tick aw) k gs) as [[t a] r].
    destruct r; cbn; now rewrite E.
  - rewrite Hf. destruct (afind aw' a) as [[k [|gs' f|gs' nb]]|]; cbn; auto. rewrite (alloc_same (a_tick aw') (a_tick aw)).
    destruct (a_alloc F (a_tick aw) k gs) as [[t x] r]. cbn. now rewrite E.
  - rewrite Hf. destruct (bad_dim 0 gs); [cbn; auto|]. destruct (afind aw' a) as [[k [|gs' f|gs' nb]]|]; cbn; auto;
      rewrite (alloc_same (a_tick aw') (a_tick aw)); destruct (a_alloc F (a_tick aw) k gs) as [[t x] r]; cbn; now rewrite E.
  - rewrite Hf. destruct (afind aw' a) as [[k [|gs' f|gs' nb]]|]; cbn; rewrite ?E; auto.
  - cbn. now rewrite E.
  - rewrite Hf. destruct (afind aw' a) as [[k x]|]; cbn; auto.
  - rewrite Hf. destruct (afind aw' a) as [[k [|gs' f|gs' nb]]|]; cbn; auto; destruct (access_error _ _ _ _ _ _); cbn; auto.
  - rewrite Hf. destruct (afind aw' a) as [[k [|gs' f|gs' nb]]|]; cbn; auto; destruct (access_error _ _ _ _ _ _); cbn; rewrite ?E; auto.
  - rewrite Hf. destruct (afind aw' a) as [[k x]|]; cbn; auto. destruct (_ <=? _); cbn; auto. destruct x; cbn; auto.
  - rewrite Hf. destruct (afind aw' a) as [[k x]|]; cbn; auto. destruct (_ <=? _); cbn; auto. destruct x; cbn; rewrite ?E; auto.
  - unfold a_read_plt. rewrite Hf. rewrite !enough. destruct (afind aw' a) as [[k x]|]; [|cbn; auto].
    repeat match goal with
    | |- context[if ?c then _ else _] => destruct c; [cbn; now auto|]
    | |- context[match ?c with Some _ => _ | None => _ end] => destruct c; [|cbn; now auto]
    end.
    all: try (destruct x; cbn; rewrite ?E; now auto).
Qed.

Lemma never_nomem aw c : snd (astep F aw c) <> RExn ENoMem.
Proof.
  assert (X : forall d a1 R r A a, snd (a_copy aw d a1 R r A a) <> RExn ENoMem).
  { intros. unfold a_copy. destruct (afind aw d) as [[k ad]|]; [|discriminate]. destruct (afind aw a1) as [[k' as_]|]; [|discriminate].
    unfold copy_error. destruct (negb _); [discriminate|]. destruct (_ && _); [discriminate|]. destruct ad, as_; discriminate. }
  assert (Y : forall N ls gs n q fl, access_error N ls gs n q fl <> Some ENoMem).
  { intros. unfold access_error. destruct (_ <=? _); [discriminate|]. assert (forall d ls fl, flag_error d ls fl <> Some ENoMem).
    { clear. intros d ls. revert d. induction ls as [|l ls IH]; intros d [|f fl]; try discriminate. cbn. destruct l, f; try discriminate; apply IH. }
    destruct (flag_error 0 ls fl) eqn:E; [intros [= ->]; now destruct (H _ _ _ E)|]. clear. generalize 0. revert gs q fl.
    induction ls as [|l ls IH]; intros [|g gs] [|x q] [|f fl] d; try discriminate. cbn. destruct (_ && _); [apply IH|]. destruct l; discriminate. }
  destruct c; cbn [astep]; try apply X.
  - destruct (_ =? 0); discriminate.
  - destruct (k_N k =? 0); [discriminate|]. pose proof (alloc_enough (a_tick aw) k gs) as A. destruct (a_alloc F (a_tick aw) k gs) as [[t a] r].
    cbn [snd] in A. destruct r; cbn [snd]; exact A.
  - destruct (afind aw a) as [[k [|gs' f|gs' nb]]|]; try discriminate. pose proof (alloc_enough (a_tick aw) k gs) as A.
    destruct (a_alloc F (a_tick aw) k gs) as [[t x] r]. exact A.
  - destruct (bad_dim 0 gs); [discriminate|]. destruct (afind aw a) as [[k [|gs' f|gs' nb]]|]; try discriminate;
      pose proof (alloc_enough (a_tick aw) k gs) as A; destruct (a_alloc F (a_tick aw) k gs) as [[t x] r]; exact A.
  - destruct (afind aw a) as [[k [|gs' f|gs' nb]]|]; discriminate.
  - discriminate.
  - destruct (afind aw a) as [[k x]|]; discriminate.
  - destruct (afind aw a) as [[k [|gs' f|gs' nb]]|]; try discriminate; destruct (access_error _ _ _ _ _ _) eqn:E; try discriminate;
      intros [= ->]; now destruct (Y _ _ _ _ _ _ E).
  - destruct (afind aw a) as [[k [|gs' f|gs' nb]]|]; try discriminate; destruct (access_error _ _ _ _ _ _) eqn:E; try discriminate;
      intros [= ->]; now destruct (Y _ _ _ _ _ _ E).
  - destruct (afind aw a) as [[k x]|]; [|discriminate]. destruct (_ <=? _); [discriminate|]. destruct x; discriminate.
  - destruct (afind aw a) as [[k x]|]; [|discriminate]. destruct (_ <=? _); [discriminate|]. destruct x; discriminate.
  - unfold a_read_plt. rewrite enough. destruct (afind aw a) as [[k x]|]; [|discriminate].
    repeat match goal with
    | |- snd (if ?c then _ else _) <> _ => destruct c
    | |- snd (match ?c with _ => _ end) <> _ => destruct c
    | |- snd (_, RExn _) <> _ => discriminate
    | |- snd (_, RDone) <> _ => discriminate
    end.
Qed.

Lemma run_same h : forall aw aw', arrs aw = arrs aw' -> legal_run F aw h ->
  legal_run F aw' h /\ snd (aexec F aw' h) = snd (aexec F aw h) /\ arrs (fst (aexec F aw' h)) = arrs (fst (aexec F aw h)).
Proof.
  induction h as [|c h IH]; intros aw aw' E HL; cbn [legal_run aexec] in *; [auto|]. destruct HL as [H1 H2].
  destruct (step_same aw aw' c E) as [S1 S2]. destruct (IH _ _ S2 H2) as (I1 & I2 & I3).
  split; [split; [now apply (legal_arrs aw)|exact I1]|].
  destruct (astep F aw c) as [aw1 r1], (astep F aw' c) as [aw1' r1']. cbn [fst snd] in *. subst r1'.
  destruct (aexec F aw1 h) as [aw2 rs], (aexec F aw1' h) as [aw2' rs']. cbn [fst snd] in *. now subst rs'.
Qed.

Lemma kept_run h : forall aw aw', arrs aw = arrs aw' -> legal_run F aw h ->
  let K := kept h (snd (aexec F aw h)) in
  legal_run F aw' (map fst K) /\ snd (aexec F aw' (map fst K)) = map snd K /\ arrs (fst (aexec F aw' (map fst K))) = arrs (fst (aexec F aw h)).
Proof.
  induction h as [|c h IH]; intros aw aw' E HL K; subst K; cbn [legal_run aexec] in *; [cbn; auto|]. destruct HL as [H1 H2].
  destruct (step_same aw aw' c E) as [S1 S2]. pose proof (never_nomem aw c) as Hn.
  pose proof (thrown_arrs aw c) as Ht. pose proof (legal_arrs aw aw' c E H1) as HL'.
  destruct (astep F aw c) as [aw1 r1] eqn:Ea. cbn [fst snd] in *.
  destruct (negb (threw r1) || creates c) eqn:Ek.
  - destruct (IH _ _ S2 H2) as (I1 & I2 & I3). destruct (aexec F aw1 h) as [aw2 rs]. cbn [fst snd] in *.
    unfold kept. cbn [combine filter]. rewrite Ek. fold (kept h rs). cbn [map fst snd legal_run aexec].
    destruct (astep F aw' c) as [aw1' r1']. cbn [fst snd] in *. subst r1'. split; [split; assumption|].
    destruct (aexec F aw1' (map fst (kept h rs))) as [aw2' rs']. cbn [fst snd] in *. now subst rs'.
  - apply orb_false_iff in Ek. destruct Ek as [K1 K2]. destruct r1 as [|e| |]; try discriminate K1.
    assert (arrs aw1 = arrs aw) as E1 by (apply (Ht e); [exact H1|reflexivity|congruence|exact K2]).
    destruct (IH aw1 aw' (eq_trans E1 E) H2) as (I1 & I2 & I3). destruct (aexec F aw1 h) as [aw2 rs]. cbn [fst snd] in *.
    unfold kept. cbn [combine filter]. cbn [threw negb orb]. rewrite K2. fold (kept h rs). auto.
Qed.

Lemma rollback h : legal_run F a_start h ->
  exists w w' rs, exec true (start F) h = Some (w, rs) /\ exec true (start F) (map fst (kept h rs)) = Some (w', map snd (kept h rs)) /\
    forall h2, legal_run F (fst (aexec F a_start h)) h2 ->
      exists w1 w1' rs2, exec true w h2 = Some (w1, rs2) /\ exec true w' h2 = Some (w1', rs2).
Proof.
  intros HL. destruct (kept_run h a_start a_start eq_refl HL) as (K1 & K2 & K3).
  destruct (exec_sim F h _ _ _ _ (rel_start F) HL) as (w & own & lk & E & HR).
  destruct (exec_sim F _ _ _ _ _ (rel_start F) K1) as (w' & own' & lk' & E' & HR').
  exists w, w', (snd (aexec F a_start h)). split; [exact E|]. split; [rewrite <- K2; exact E'|].
  intros h2 H2. destruct (run_same h2 _ _ (eq_sym K3) H2) as (R1 & R2 & _).
  destruct (exec_sim F h2 _ _ _ _ HR H2) as (w1 & ? & ? & E1 & _). destruct (exec_sim F h2 _ _ _ _ HR' R1) as (w1' & ? & ? & E1' & _).
  rewrite R2 in E1'. eauto.
Qed.

End Run.

(** ** The messages *)

Definition speaks (e : exn) : Prop := numbers_ok e /\ what e <> None.

Section Speak.
Context {V : Type}.
Variable F : nat -> bool.

Lemma flag_error_speaks ls : forall d fl e, 0 <= d -> d + Z.of_nat (length ls) <= 3 -> flag_error d ls fl = Some e -> speaks e.
Proof.
  induction ls as [|l ls IH]; intros d [|f fl] e Hd Hl H; try discriminate H. cbn in H. cbn [length] in Hl.
  destruct l, f; try (injection H as <-; split; [cbn; unfold in_int; lia|discriminate]); now apply (IH (d + 1)) in H; try lia.
Qed.
Lemma index_error_speaks ls : forall d gs q fl e, 0 <= d -> d + Z.of_nat (length ls) <= 3 -> Forall shape_ok gs -> Forall in_int q ->
  index_error d ls gs q fl = Some e -> speaks e.
Proof.
  induction ls as [|l ls IH]; intros d [|g gs] [|x q] [|f fl] e Hd Hl Hg Hq H; try discriminate H. cbn [length] in Hl.
  inversion Hg as [|? ? G1 G2]; subst. inversion Hq as [|? ? Q1 Q2]; subst. cbn [index_error] in H.
  match type of H with (if ?c then _ else _) = _ => destruct c end; [now apply (IH (d + 1)) in H; try lia|]. injection H as <-.
  destruct g as [[gn gi] gp]. cbn [shape_ok] in G1. unfold range_error. cbn [region fst snd].
  destruct l; (split; [|discriminate]); cbn [numbers_ok]; unfold in_int in *; [lia|].
  assert (fl_offset f = 0 \/ fl_offset f = 1) by (destruct f; cbn; auto). lia.
Qed.
Lemma access_error_speaks (k : kind) gs n q fl e : kok k -> in_uint n -> Forall shape_ok gs -> Forall in_int q ->
  access_error (k_N k) (k_locs k) gs n q fl = Some e -> speaks e.
Proof.
  intros HN Hn Hg Hq. unfold access_error. destruct (k_N k <=? n).
  - intros [= <-]. split; [|discriminate]. cbn. split; [exact Hn|]. unfold kok, in_int in *. lia.
  - destruct (flag_error 0 (k_locs k) fl) eqn:E.
    + intros [= <-]. apply flag_error_speaks in E; [exact E|lia|destruct k; cbn; lia].
    + intros H. apply index_error_speaks in H; [exact H|lia|destruct k; cbn; lia|exact Hg|exact Hq].
Qed.
Lemma bad_dim_range gs : forall d b, 0 <= d -> bad_dim d gs = Some b -> d <= b < d + Z.of_nat (length gs).
Proof.
  induction gs as [|[[n i] p] gs IH]; intros d b Hd H; [discriminate H|]. cbn [bad_dim length] in *. destruct (_ && _); [injection H as <-; lia|].
  apply IH in H; lia.
Qed.
Lemma bad_dim_speaks (k : kind) gs b : shape_arg k gs -> bad_dim 0 gs = Some b -> speaks (EInZero b).
Proof.
  intros (HL & _) H. apply bad_dim_range in H; [|lia]. split; [|discriminate]. cbn. assert (length gs <= 3)%nat by (rewrite HL; destruct k; cbn; lia).
  unfold in_int. lia.
Qed.
Lemma a_alloc_speaks t (k : kind) gs n a e : shape_arg k gs -> a_alloc F t k gs = (n, a, RExn e : result V) -> speaks e.
Proof.
  intros HS. unfold a_alloc. destruct (bad_dim 0 gs) eqn:E; [intros [= _ _ <-]; now apply (bad_dim_speaks k gs)|]. destruct (_ =? 0); [discriminate|].
  destruct (first_fail F t _) as [[|]|]; intros H; try discriminate H; injection H as _ _ <-; (split; [exact I|discriminate]).
Qed.

Lemma a_copy_speaks (aw : aworld V) d a1 R r A a e : snd (a_copy aw d a1 R r A a) = RExn e -> speaks e.
Proof.
  unfold a_copy. destruct (afind aw d) as [[k ad]|]; [|discriminate]. destruct (afind aw a1) as [[k' as_]|]; [|discriminate].
  unfold copy_error. destruct (negb _); [intros [= <-]; split; [exact I|discriminate]|]. destruct (_ && _); [intros [= <-]; split; [exact I|discriminate]|].
  destruct ad, as_; discriminate.
Qed.

Lemma astep_speaks h w (aw : aworld V) c e : after F h w aw -> legal aw c -> reads_file c = false -> snd (astep F aw c) = RExn e -> speaks e.
Proof.
  intros HA HL Hc. destruct (after_rel _ _ _ _ HA) as (own & lk & HR).
  assert (HE : forall a k x, afind aw a = Some (k, x) -> kok k /\ exists o, rep k (heap w) o x (own a)).
  { intros a k x Ha. pose proof (r_arr _ _ _ _ _ HR a) as Ho. rewrite Ha in Ho. unfold entry_ok in Ho.
    destruct (find w a) as [[k' o]|]; [|contradiction]. destruct Ho as (-> & HN & Hr). eauto. }
  assert (HX : forall a n q fl k x, legal_access aw a n q fl -> afind aw a = Some (k, x) -> x <> AEmpty -> forall e,
             access_error (k_N k) (k_locs k) (a_shape k x) n q fl = Some e -> speaks e).
  { intros a n q fl k x Hg Ha Hx e0 He. destruct (HE _ _ _ Ha) as (HN & o & Hr). unfold legal_access, exists_arr in Hg. rewrite Ha in Hg.
    apply (access_error_speaks k (a_shape k x) n q fl e0 HN); try tauto. destruct x; [congruence|apply Hr..]. }
  assert (N1 : forall a k x n, afind aw a = Some (k, x) -> in_uint n -> speaks (EN n (k_N k - 1))).
  { intros a k x n Ha Hn. split; [|discriminate]. cbn. split; [exact Hn|]. destruct (HE _ _ _ Ha) as (HN & _). unfold kok, in_int in *. lia. }
  destruct c; cbn [reads_file] in Hc; try discriminate Hc; cbn [astep legal] in *; try apply a_copy_speaks.
  - destruct (_ =? 0); [intros [= <-]; split; [exact I|discriminate]|discriminate].
  - destruct (k_N k =? 0); [intros [= <-]; split; [exact I|discriminate]|]. destruct (a_alloc F (a_tick aw) k gs) as [[t a] r] eqn:E.
    destruct r; intros H; try discriminate H; injection H as <-; now apply a_alloc_speaks in E.
  - unfold exists_arr in HL. destruct (afind aw a) as [[k [|gs' f|gs' nb]]|]; try (intros [= <-]; split; [exact I|discriminate]).
    destruct (a_alloc F (a_tick aw) k gs) as [[t x] r] eqn:E. cbn [snd]. intros ->. now apply a_alloc_speaks in E.
  - unfold exists_arr in HL. destruct (afind aw a) as [[k x]|] eqn:Ea; [|contradiction].
    destruct (bad_dim 0 gs) eqn:Eb; [intros [= <-]; now apply (bad_dim_speaks k gs)|].
    destruct x as [|gs' f|gs' nb]; [intros [= <-]; split; [exact I|discriminate]| |];
      destruct (a_alloc F (a_tick aw) k gs) as [[t x] r] eqn:E; cbn [snd]; intros ->; now apply a_alloc_speaks in E.
  - destruct (afind aw a) as [[k [|gs' f|gs' nb]]|]; try (intros [= <-]; split; [exact I|discriminate]); discriminate.
  - discriminate.
  - destruct (afind aw a) as [[k x]|]; discriminate.
  - destruct (afind aw a) as [[k [|gs' f|gs' nb]]|] eqn:Ea; try (intros [= <-]; split; [exact I|discriminate]); try discriminate.
    + destruct (access_error _ _ _ _ _ _) eqn:E; try discriminate. intros [= <-]. eapply HX; [exact HL|exact Ea|discriminate|exact E].
    + destruct (access_error _ _ _ _ _ _) eqn:E; try discriminate. intros [= <-]. eapply HX; [exact HL|exact Ea|discriminate|exact E].
  - destruct (afind aw a) as [[k [|gs' f|gs' nb]]|] eqn:Ea; try (intros [= <-]; split; [exact I|discriminate]); try discriminate.
    + destruct (access_error _ _ _ _ _ _) eqn:E; try discriminate. intros [= <-]. eapply HX; [exact HL|exact Ea|discriminate|exact E].
    + destruct (access_error _ _ _ _ _ _) eqn:E; try discriminate. intros [= <-]. eapply HX; [exact HL|exact Ea|discriminate|exact E].
  - unfold legal_data, exists_arr in HL. destruct (afind aw a) as [[k x]|] eqn:Ea; [|discriminate]. destruct (_ <=? _).
    + intros [= <-]. apply (N1 _ _ _ _ Ea), HL.
    + destruct x; discriminate.
  - unfold legal_data, exists_arr in HL. destruct (afind aw a) as [[k x]|] eqn:Ea; [|discriminate]. destruct (_ <=? _).
    + intros [= <-]. apply (N1 _ _ _ _ Ea), HL.
    + destruct x; discriminate.
Qed.

(** The outcomes of a session without read_plt. *)

Lemma block_speaks (b : list (stmt V)) : forall h w aw, after F h w aw -> legal_block F aw b -> Forall no_file b ->
  match snd (a_block F aw b) with Some e => speaks e | None => True end /\
  exists w' , after F (h ++ snd (fst (fst (a_block F aw b)))) w' (fst (fst (fst (a_block F aw b)))).
Proof.
  induction b as [|s b IH]; intros h w aw HA HL HN; cbn [a_block legal_block] in *.
  - cbn. split; [exact I|]. exists w. now rewrite app_nil_r.
  - destruct HL as (H1 & _ & H3). inversion HN as [|? ? N1 N2]; subst. pose proof (astep_speaks h w aw (stmt_op s)) as HS.
    destruct (after_step F h w aw _ HA H1) as (w1 & _ & HA1).
    destruct (astep F aw (stmt_op s)) as [aw1 r] eqn:Ea. cbn [fst snd] in *.
    destruct r as [|x|gs|v].
    2:{ cbn. split; [now apply HS|]. eauto. }
    all: specialize (IH _ _ _ HA1 H3 N2); destruct (a_block F aw1 b) as [[[aw2 h2] t2] x2]; cbn [fst snd] in *; rewrite <- app_assoc in IH; exact IH.
Qed.

Lemma session_speaks (bs : list (list (stmt V))) : forall h w aw, after F h w aw -> legal_session F aw bs -> Forall (Forall no_file) bs ->
  Forall (fun r => match snd r with Some e => speaks e | None => True end) (snd (a_session F aw bs)).
Proof.
  induction bs as [|b bs IH]; intros h w aw HA HL HN; cbn [a_session legal_session] in *; [constructor|].
  destruct HL as [H1 H2]. inversion HN as [|? ? N1 N2]; subst. destruct (block_speaks b h w aw HA H1 N1) as (B1 & w1 & B2).
  destruct (a_block F aw b) as [[[aw1 h1] t] x]. cbn [fst snd] in *. specialize (IH _ _ _ B2 H2 N2).
  destruct (a_session F aw1 bs) as [[aw2 h2] rs]. cbn [fst snd] in *. now constructor.
Qed.

Lemma block_silent (b : list (stmt V)) : Forall plain_do b -> forall aw, snd (fst (a_block F aw b)) = "".
Proof.
  induction 1 as [|s b Hs _ IH]; intros aw; cbn [a_block]; [reflexivity|]. destruct (astep F aw (stmt_op s)) as [aw1 r].
  destruct s; [|contradiction]. destruct r; cbn [shown append]; try reflexivity;
    specialize (IH aw1); destruct (a_block F aw1 b) as [[[aw2 h2] t2] x2]; exact IH.
Qed.
Lemma session_silent (bs : list (list (stmt V))) : Forall (Forall plain_do) bs -> forall aw, Forall (fun r => fst r = "") (snd (a_session F aw bs)).
Proof.
  induction 1 as [|b bs Hb _ IH]; intros aw; cbn [a_session]; [constructor|]. pose proof (block_silent b Hb aw) as E.
  destruct (a_block F aw b) as [[[aw1 h1] t] x]. cbn [fst snd] in *. specialize (IH aw1).
  destruct (a_session F aw1 bs) as [[aw2 h2] rs]. cbn [fst snd] in *. now constructor.
Qed.

End Speak.

(** ** Taking the texts apart *)

Fixpoint avoids (c : ascii) (s : string) : Prop := match s with "" => True | String a s' => a <> c /\ avoids c s' end.
Lemma avoids_app c u v : avoids c u -> avoids c v -> avoids c (u ++ v).
Proof. induction u as [|a u IH]; cbn; [auto|]. intros [H1 H2] H3. auto. Qed.
Lemma cut_at c u v u' v' : avoids c u -> avoids c u' -> u ++ String c v = u' ++ String c v' -> u = u' /\ v = v'.
Proof.
  revert u'. induction u as [|a u IH]; intros [|a' u'] H H' E; cbn in *.
  - injection E as ->. auto.
  - injection E as <- _. now destruct H'.
  - injection E as -> _. now destruct H.
  - injection E as -> E. destruct (IH u' (proj2 H) (proj2 H') E) as [-> ->]. auto.
Qed.
Lemma digits_avoid c s : all_digits s = true -> is_digit c = false -> avoids c s.
Proof.
  induction s as [|a s IH]; cbn; [auto|]. intros H Hc. apply andb_true_iff in H. destruct H as [H1 H2]. split; [congruence|]. now apply IH.
Qed.

Lemma fmt_avoid z : small z -> avoids (ascii_of_nat 10) (fmt_i z).
Proof.
  intros H. destruct (numeral_fmt z H) as [_ [H1|(s' & -> & H1)]]; [now apply digits_avoid|]. cbn. split; [discriminate|now apply digits_avoid].
Qed.
Lemma avoids_line s : avoids (ascii_of_nat 10) s <-> one_line s.
Proof. induction s as [|c s IH]; cbn [avoids one_line]; [tauto|]. now rewrite IH. Qed.
Lemma avoids_bracket s : avoids "]" s <-> no_bracket s.
Proof. induction s as [|c s IH]; cbn [avoids no_bracket]; [tauto|]. now rewrite IH. Qed.
Lemma what_line e t : numbers_ok e -> what e = Some t -> one_line t.
Proof.
  intros H E. apply avoids_line. destruct e; try discriminate E; cbn [what numbers_ok] in *; apply (f_equal (fun x => match x with Some y => y | None => "" end)) in E;
    cbv beta iota in E; subst t;
    repeat match goal with K : _ /\ _ |- _ => destruct K end;
    rewrite ?fmt_u_i by (match goal with K : in_uint _ |- _ => apply K end);
    repeat match goal with
    | |- avoids _ (fmt_i _ ++ _) => apply avoids_app; [apply fmt_avoid; small_tac|]
    | |- avoids _ (fmt_i _) => apply fmt_avoid; small_tac
    | |- avoids _ (ijk_str ?d ++ _) => apply avoids_app; [unfold ijk_str; destruct (d =? 0); [|destruct (d =? 1)]; cbn; repeat split; discriminate|]
    | |- avoids _ (flag_str ?d ++ _) => apply avoids_app; [unfold flag_str; destruct (d =? 0); cbn; repeat split; discriminate|]
    | |- avoids _ (String _ _ ++ _) => apply avoids_app; [cbn; repeat split; discriminate|]
    | |- avoids _ (String _ _) => cbn; repeat split; discriminate
    end.
Qed.

Lemma stamp_cut time z d r time' z' d' r' :
  no_bracket time -> no_bracket time' -> ten_digits z d -> ten_digits z' d' ->
  "[" ++ time ++ "|" ++ d ++ String "]" r = "[" ++ time' ++ "|" ++ d' ++ String "]" r' -> r = r'.
Proof.
  intros H1 H2 (D1 & _) (D2 & _) E. cbn [append] in E. injection E as E.
  change (time ++ "|" ++ (d ++ String "]" r) = time' ++ "|" ++ (d' ++ String "]" r')) in E. rewrite <- !append_assoc in E.
  apply cut_at in E; [apply E| |]; apply avoids_app; try (apply digits_avoid; [assumption|reflexivity]);
    apply avoids_app; try (apply avoids_bracket; assumption); cbn; repeat split; discriminate.
Qed.

Lemma writes_inv text its rs o e : writes text its rs o e ->
  match rs with
  | [] => o = "" /\ e = ""
  | (t, x) :: rs1 => exists time z d its1 o1 e1, its = (time, z) :: its1 /\ ten_digits z d /\ writes text its1 rs1 o1 e1 /\
      o = t ++ "[" ++ time ++ "|" ++ d ++ String "]" ((match x with None => ": no exception" | Some _ => ": with exception" end) ++ NL ++ o1) /\
      e = match x with None => e1 | Some x => "[" ++ time ++ "|" ++ d ++ String "]" (": " ++ text x ++ NL ++ e1) end
  end.
Proof. intros []; [auto|..]; do 6 eexists; repeat (split; [try reflexivity; eassumption|]); auto. Qed.

Lemma writes_inj text : (forall x t, what x = Some t -> text x = t) ->
  forall rs its o e, writes text its rs o e -> forall rs' its', writes text its' rs' o e ->
  Forall (fun i => no_bracket (fst i)) its -> Forall (fun i => no_bracket (fst i)) its' ->
  Forall (fun r => fst r = "") rs -> Forall (fun r => fst r = "") rs' ->
  Forall (fun r => match snd r with Some e => speaks e | None => True end) rs ->
  Forall (fun r => match snd r with Some e => speaks e | None => True end) rs' -> map snd rs = map snd rs'.
Proof.
  intros HT. induction rs as [|[t x] rs IH]; intros its o e HW [|[t' x'] rs'] its' HW' T T' S S' P P'; apply writes_inv in HW, HW'.
  - reflexivity.
  - destruct HW as [-> _]. destruct HW' as (? & ? & ? & ? & ? & ? & _ & _ & _ & E & _). inversion S' as [|? ? S1 _]; subst. cbn [fst] in S1. subst t'. discriminate E.
  - destruct HW' as [-> _]. destruct HW as (? & ? & ? & ? & ? & ? & _ & _ & _ & E & _). inversion S as [|? ? S1 _]; subst. cbn [fst] in S1. subst t. discriminate E.
  - destruct HW as (time & z & d & its1 & o1 & e1 & -> & D & W1 & -> & ->). destruct HW' as (time' & z' & d' & its1' & o1' & e1' & -> & D' & W1' & E & E').
    apply Forall_cons_iff in T, T', S, S', P, P'. cbn [fst snd] in *.
    destruct S as [-> S], S' as [-> S'], T as [T1 T], T' as [T1' T'], P as [P1 P], P' as [P1' P'].
    assert (NL0 : forall s, "" ++ s = s) by reflexivity. rewrite !NL0 in E.
    apply stamp_cut with (z := z) (z' := z') in E; [|assumption..].
    destruct x as [x|], x' as [x'|]; [|discriminate E|discriminate E|].
    + cbn [append] in E. unfold NL in E. cbn [append] in E. injection E as <-.
      apply stamp_cut with (z := z) (z' := z') in E'; [|assumption..]. cbn [append] in E'. injection E' as E'.
      destruct P1 as [N1 M1], P1' as [N1' M1']. destruct (what x) as [m|] eqn:Ex; [|congruence]. destruct (what x') as [m'|] eqn:Ex'; [|congruence].
      rewrite (HT _ _ Ex), (HT _ _ Ex') in E'. unfold NL in E'. cbn [append] in E'.
      apply cut_at in E'; [|apply avoids_line; first [exact (what_line _ _ N1 Ex) | exact (what_line _ _ N1' Ex')]..]. destruct E' as [<- <-].
      assert (x = x') as <- by (apply what_inj; congruence). cbn [map snd]. f_equal. eapply IH; eassumption.
    + unfold NL in E. cbn [append] in E. injection E as <-. subst e1'. cbn [map snd]. f_equal. eapply IH; eassumption.
Qed.

Lemma tell {V V' : Type} (F F' : nat -> bool) text (items : list (string * Z * list (stmt V))) (items' : list (string * Z * list (stmt V'))) w w' o e :
  (forall x t, what x = Some t -> text x = t) ->
  legal_session F a_start (map snd items) -> legal_session F' a_start (map snd items') ->
  Forall plain_item items ->
  Forall plain_item items' ->
  session true text items (Desk (start F) "" "") = Ret (Desk w o e) tt ->
  session true text items' (Desk (start F') "" "") = Ret (Desk w' o e) tt ->
  map snd (snd (a_session F a_start (map snd items))) = map snd (snd (a_session F' a_start (map snd items'))).
Proof.
  intros HT HL HL' HI HI' HS HS'.
  assert (X : forall (U : Type) G (its : list (string * Z * list (stmt U))) w, legal_session G a_start (map snd its) ->
            Forall plain_item its ->
            session true text its (Desk (start G) "" "") = Ret (Desk w o e) tt ->
            let rs := snd (a_session G a_start (map snd its)) in
            writes text (map fst its) rs o e /\ Forall (fun i => no_bracket (fst i)) (map fst its) /\ Forall (fun r => fst r = "") rs /\
            Forall (fun r => match snd r with Some e => speaks e | None => True end) rs).
  { clear. intros U G its w HL HI HS rs.
    assert (HZ : Forall (fun '(_, z, _) => 0 <= z < 2147483648) its) by (eapply Forall_impl; [|exact HI]; intros [[time z] b]; unfold plain_item; cbn; tauto).
    pose proof (session_ok G its text HL HZ) as H.
    assert (after G [] (start G) (@a_start U)) as HA by (split; [exact I|split; [reflexivity|eexists; reflexivity]]).
    split; [|split; [|split]].
    - subst rs. destruct (a_session G a_start (map snd its)) as [[aw h] rs]. destruct H as (w1 & o1 & e1 & E & _ & HW). rewrite HS in E. injection E as _ <- <-. exact HW.
    - apply Forall_map. eapply Forall_impl; [|exact HI]. unfold plain_item. cbn. tauto.
    - apply session_silent, Forall_map. eapply Forall_impl; [|exact HI]. unfold plain_item. cbn. tauto.
    - eapply session_speaks; [exact HA|exact HL|]. apply Forall_map. eapply Forall_impl; [|exact HI]. unfold plain_item. cbn. tauto. }
  destruct (X V F items w HL HI HS) as (A1 & A2 & A3 & A4). destruct (X V' F' items' w' HL' HI' HS') as (B1 & B2 & B3 & B4).
  eapply writes_inj; eassumption.
Qed.
