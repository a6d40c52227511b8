(** Auxiliary data and echo modes. *)

From Coq Require Import ZArith Ascii String List Bool Lia Sorted.
From Verif Require Import Base M_Bytes M_TecZone M_TecFile Spec_Plt Spec_Aux L_Base L_Plt L_Text.
Import ListNotations.
Open Scope list_scope.
Open Scope Z_scope.

(** ** Order of names *)

Lemma b2z_inj a b : b2z a = b2z b -> a = b.
Proof. intros H. rewrite <- (z2b_b2z a), <- (z2b_b2z b), H. reflexivity. Qed.

Lemma str_lt_before a : forall b, str_lt a b = true <-> before a b.
Proof.
  unfold before. induction a as [|c a IH]; intros [|d b]; cbn [str_lt].
  - split; [discriminate|]. intros [(c & r & H)|(p & c & d & a' & b' & H & _)]; [discriminate|destruct p; discriminate].
  - split; [|reflexivity]. intros _. left. exists d, b. reflexivity.
  - split; [discriminate|]. intros [(e & r & H)|(p & e & d & a' & b' & _ & H & _)]; [discriminate|destruct p; discriminate].
  - destruct (b2z c <? b2z d) eqn:E1; zcmp.
    + split; [|reflexivity]. intros _. right. exists ""%string, c, d, a, b. repeat split. assumption.
    + destruct (b2z d <? b2z c) eqn:E2; zcmp.
      * split; [discriminate|]. intros [(e & r & H)|(p & e & g & a' & b' & H1 & H2 & H3)].
        -- cbn in H. injection H as -> _. lia.
        -- destruct p as [|q p]; cbn in H1, H2; injection H1 as -> H1; injection H2 as H2 _; [subst; lia|subst; lia].
      * assert (c = d) as <- by (apply b2z_inj; lia). rewrite IH. split.
        -- intros [(e & r & ->)|(p & e & g & a' & b' & -> & -> & H3)].
           ++ left. exists e, r. reflexivity.
           ++ right. exists (String c p), e, g, a', b'. repeat split. assumption.
        -- intros [(e & r & H)|(p & e & g & a' & b' & H1 & H2 & H3)].
           ++ cbn in H. injection H as ->. left. exists e, r. reflexivity.
           ++ destruct p as [|q p]; cbn in H1, H2.
              ** injection H1 as -> _. injection H2 as -> _. lia.
              ** injection H1 as -> ->. injection H2 as ->. right. exists p, e, g, a', b'. repeat split. assumption.
Qed.

Lemma str_lt_irrefl a : str_lt a a = false.
Proof. induction a as [|c a IH]; [reflexivity|]. cbn. rewrite Z.ltb_irrefl. assumption. Qed.
Lemma str_lt_trans a : forall b c, str_lt a b = true -> str_lt b c = true -> str_lt a c = true.
Proof.
  induction a as [|x a IH]; intros [|y b] [|z c]; cbn [str_lt]; try discriminate; auto.
  destruct (b2z x <? b2z y) eqn:E1, (b2z y <? b2z z) eqn:E2, (b2z x <? b2z z) eqn:E3; zcmp; try lia; auto;
  destruct (b2z y <? b2z x) eqn:E4, (b2z z <? b2z y) eqn:E5, (b2z z <? b2z x) eqn:E6; zcmp; try lia; try discriminate; auto.
  apply IH.
Qed.
Lemma str_lt_total a : forall b, str_lt a b = false -> str_lt b a = false -> a = b.
Proof.
  induction a as [|x a IH]; intros [|y b]; cbn [str_lt]; try discriminate; auto.
  destruct (b2z x <? b2z y) eqn:E1, (b2z y <? b2z x) eqn:E2; zcmp; try discriminate; try lia.
  intros H1 H2. assert (x = y) as <- by (apply b2z_inj; lia). rewrite (IH b H1 H2). reflexivity.
Qed.

(** ** The map *)

Definition slt (p q : string * string) : Prop := str_lt (fst p) (fst q) = true.
Definition has (n : string) (a : aux) : bool := existsb (fun p => String.eqb (fst p) n) a.

Lemma insert_spec a k v : StronglySorted slt a ->
  let '(a', b) := aux_insert a k v in
  StronglySorted slt a' /\ b = negb (has k a) /\
  (forall p, In p a' <-> In p a \/ (b = true /\ p = (k, v))).
Proof.
  induction a as [|[k' v'] a IH]; intros Hs; cbn [aux_insert has existsb fst].
  - split; [repeat constructor|]. split; [reflexivity|]. intros p. cbn. intuition congruence.
  - inversion Hs as [|? ? Hs1 Hs2]; subst. rewrite Forall_forall in Hs2. unfold slt in Hs2; cbn [fst] in Hs2.
    destruct (str_lt k k') eqn:E1.
    + assert (Hno : has k ((k', v') :: a) = false).
      { unfold has. apply not_true_iff_false. intros C. apply existsb_exists in C. destruct C as (p & Hin & Hp). apply String.eqb_eq in Hp.
        destruct Hin as [<-|Hin]; cbn in Hp; subst; [rewrite str_lt_irrefl in E1; discriminate|].
        pose proof (str_lt_trans _ _ _ E1 (Hs2 p Hin)) as C. rewrite str_lt_irrefl in C. discriminate. }
      cbn [has existsb fst] in Hno. rewrite Hno. split; [|split; [reflexivity|]].
      * constructor; [assumption|]. apply Forall_forall. intros p [<-|Hin]; [assumption|]. unfold slt. cbn [fst]. eapply str_lt_trans; [eassumption|]. apply Hs2. assumption.
      * intros p. cbn [In]. intuition congruence.
    + destruct (str_lt k' k) eqn:E2.
      * specialize (IH Hs1). destruct (aux_insert a k v) as [r b]. destruct IH as (I1 & I2 & I3).
        assert (Hne : String.eqb k' k = false).
        { apply String.eqb_neq. intros ->. rewrite str_lt_irrefl in E2. discriminate. }
        rewrite Hne. cbn [orb]. split; [|split; [exact I2|]].
        -- constructor; [assumption|]. apply Forall_forall. intros p Hp. apply I3 in Hp. unfold slt. cbn [fst]. destruct Hp as [Hp|[_ ->]]; [apply Hs2; assumption|assumption].
        -- intros p. cbn [In]. rewrite I3. tauto.
      * assert (k' = k) as -> by (apply str_lt_total; assumption). rewrite String.eqb_refl. cbn [orb negb].
        split; [assumption|]. split; [reflexivity|]. intros p. intuition discriminate.
Qed.

Lemma first_with_some n l p : first_with n l = Some p -> In p l /\ fst p = n.
Proof. intros H. apply find_some in H. destruct H as [H1 H2]. apply String.eqb_eq in H2. auto. Qed.
Lemma first_with_app n l r : first_with n (l ++ r) = match first_with n l with Some p => Some p | None => first_with n r end.
Proof. unfold first_with. induction l as [|q l IH]; [reflexivity|]. cbn. destruct (String.eqb (fst q) n); [reflexivity|assumption]. Qed.

(** The map after a run of insertions [l]. *)
Definition reflects (l : list (string * string)) (a : aux) : Prop :=
  StronglySorted slt a /\ forall p, In p a <-> first_with (fst p) l = Some p.

Lemma has_first l a n : reflects l a -> has n a = match first_with n l with Some _ => true | None => false end.
Proof.
  intros [_ H]. destruct (first_with n l) as [p|] eqn:E.
  - apply existsb_exists. exists p. destruct (first_with_some _ _ _ E) as [_ En]. split; [apply H; rewrite En; assumption|].
    apply String.eqb_eq. assumption.
  - apply not_true_iff_false. intros C. apply existsb_exists in C. destruct C as (p & Hin & Hp). apply String.eqb_eq in Hp.
    apply H in Hin. rewrite Hp in Hin. congruence.
Qed.

Lemma reflects_add l a n v : reflects l a ->
  let '(a', b) := add_auxiliary_data a n v in
  reflects (l ++ [(n, v)]) a' /\ b = match first_with n l with Some _ => false | None => true end.
Proof.
  intros Hr. pose proof (has_first l a n Hr) as Hh. destruct Hr as [Hs H]. unfold add_auxiliary_data.
  pose proof (insert_spec a n v Hs) as Hi. destruct (aux_insert a n v) as [a' b]. destruct Hi as (I1 & I2 & I3).
  rewrite Hh in I2. split; [split; [assumption|]|destruct (first_with n l); exact I2].
  intros p. rewrite I3, H, first_with_app.
  destruct (first_with (fst p) l) as [q|] eqn:E.
  - split; [|auto]. intros [E2|[Hb ->]]; [congruence|]. cbn [fst] in E. rewrite E in I2. subst b. discriminate.
  - cbn. destruct (String.eqb n (fst p)) eqn:En.
    + apply String.eqb_eq in En. subst n. rewrite E in I2. subst b. cbn. split; [|].
      * intros [C|[_ ->]]; [discriminate|reflexivity].
      * intros C. injection C as <-. right. split; reflexivity.
    + apply String.eqb_neq in En. split; [|discriminate]. intros [C|[_ ->]]; [discriminate|]. exfalso. apply En. reflexivity.
Qed.

Lemma add_all_spec l : forall done a, reflects done a ->
  let '(a', bs) := add_all a l in
  reflects (done ++ l) a' /\ length bs = length l /\
  forall k n v, nth_error l k = Some (n, v) ->
    nth_error bs k = Some (match first_with n (done ++ firstn k l) with Some _ => false | None => true end).
Proof.
  induction l as [|[n v] l IH]; intros done a Hr; cbn [add_all].
  - rewrite app_nil_r. split; [assumption|]. split; [reflexivity|]. intros [|k] ? ? H; discriminate.
  - pose proof (reflects_add done a n v Hr) as H. destruct (add_auxiliary_data a n v) as [a1 b]. destruct H as [H1 H2].
    specialize (IH (done ++ [(n, v)]) a1 H1). destruct (add_all a1 l) as [a2 bs]. destruct IH as (I1 & I2 & I3).
    rewrite <- app_assoc in I1. split; [assumption|]. split; [cbn; congruence|].
    intros [|k] n' v' Hk; cbn [nth_error firstn] in *.
    + injection Hk as <- <-. rewrite app_nil_r, H2. reflexivity.
    + rewrite (I3 k n' v' Hk), <- app_assoc. reflexivity.
Qed.

Lemma aux_find_spec l a n : reflects l a -> aux_find a n = option_map snd (first_with n l).
Proof.
  intros [Hs H].
  assert (Hf : forall b, StronglySorted slt b -> forall v, aux_find b n = Some v <-> In (n, v) b).
  { clear. induction b as [|[k' v'] b IH]; intros Hs v; cbn [aux_find].
    - split; [discriminate|intros []].
    - inversion Hs as [|? ? Hs1 Hs2]; subst. destruct (String.eqb n k') eqn:E.
      + apply String.eqb_eq in E. subst k'. split; [intros C; injection C as ->; left; reflexivity|].
        intros [C|C]; [congruence|]. rewrite Forall_forall in Hs2. apply Hs2 in C. unfold slt in C. cbn in C. rewrite str_lt_irrefl in C. discriminate.
      + apply String.eqb_neq in E. rewrite IH by assumption. cbn [In]. split; [auto|]. intros [C|C]; [congruence|assumption]. }
  destruct (first_with n l) as [p|] eqn:E; cbn [option_map].
  - apply Hf; [assumption|]. destruct (first_with_some _ _ _ E) as [_ En]. destruct p as [k v]. cbn in En. subst k. apply H. assumption.
  - destruct (aux_find a n) as [v|] eqn:F; [|reflexivity]. apply Hf in F; [|assumption]. apply H in F. cbn in F. congruence.
Qed.

Lemma aux_sequence l a bs : add_all [] l = (a, bs) ->
  (length bs = length l /\
   forall k n v, nth_error l k = Some (n, v) ->
     nth_error bs k = Some (match first_with n (firstn k l) with Some _ => false | None => true end)) /\
  (forall p, In p a <-> first_with (fst p) l = Some p) /\
  StronglySorted (fun p q => before (fst p) (fst q)) a /\
  (forall kind owner n, match first_with n l with
     | Some p => get_auxiliary_data kind owner a n = Ok (snd p)
     | None => exists m, get_auxiliary_data kind owner a n = Err (ETec m)
     end).
Proof.
  intros E. pose proof (add_all_spec l [] []) as H. rewrite E in H. destruct H as (H1 & H2 & H3).
  { split; [constructor|]. intros p. cbn. split; [intros []|discriminate]. }
  cbn [app] in *. split; [split; assumption|]. split; [apply H1|]. split.
  - destruct H1 as [H1 _]. clear - H1. induction H1 as [|p a Hs IH Hf]; constructor; [assumption|].
    eapply Forall_impl; [|exact Hf]. intros q. apply str_lt_before.
  - intros kind owner n. unfold get_auxiliary_data. rewrite (aux_find_spec l a n H1).
    destruct (first_with n l) as [p|]; cbn [option_map]; eauto.
Qed.

(** A number as value. *)
Lemma aux_number a n v : (forall x, num64 v = Fin x -> Z.abs x < 10 ^ 190 * 2 ^ 1074) ->
  add_auxiliary_double a n v = Ok (add_auxiliary_data a n (fmt_lf 6 v)).
Proof.
  intros H. unfold add_auxiliary_double. rewrite sprintf_ok; [reflexivity|].
  pose proof (fmt_lf_length 6 v 190) as L. assert ((String.length (fmt_lf 6 v) <= 199)%nat); [|lia].
  transitivity (S (191 + 1 + 6)); [|lia]. apply L; [lia|]. intros x Hx. specialize (H x Hx).
  change (Z.of_nat 191) with 191. assert (10 ^ 190 < 10 ^ 191 - 1) by (vm_compute; reflexivity).
  assert (0 < 2 ^ 1074) by (apply Z.pow_pos_nonneg; lia). revert H H0 H1. generalize (10 ^ 190) (10 ^ 191 - 1) (2 ^ 1074). intros; nia.
Qed.

(** ** Echo modes *)

Lemma bit_char c : (b2z c =? 48) = true \/ (b2z c =? 49) = true <-> c = "0"%char \/ c = "1"%char.
Proof.
  rewrite !Z.eqb_eq. split.
  - intros [H|H]; [left|right]; apply b2z_inj; rewrite H; reflexivity.
  - intros [->| ->]; [left|right]; reflexivity.
Qed.

Lemma bits_of_none s : forall acc, ~ bit_text s -> bits_of s acc = None.
Proof.
  induction s as [|c s IH]; intros acc H; cbn [bits_of].
  - exfalso. apply H. intros c [].
  - pose proof (bit_char c) as Hc. assert (Hs : (c = "0"%char \/ c = "1"%char) -> ~ bit_text s).
    { intros H1 H2. apply H. intros d [<-|Hd]; [assumption|apply H2; assumption]. }
    destruct (b2z c =? 48) eqn:E0; [apply IH, Hs, Hc; auto|]. destruct (b2z c =? 49) eqn:E1; [apply IH, Hs, Hc; auto|reflexivity].
Qed.

Lemma bits_of_some s : forall acc, bit_text s -> 0 <= acc -> exists n, bits_of s acc = Some n /\ 0 <= n /\
  forall i, Z.testbit n (Z.of_nat i) = true <->
    if (i <? String.length s)%nat then nth_error (rev (list_ascii_of_string s)) i = Some "1"%char
    else Z.testbit acc (Z.of_nat (i - String.length s)) = true.
Proof.
  induction s as [|c s IH]; intros acc Hb Ha; cbn [bits_of].
  - exists acc. split; [reflexivity|]. split; [assumption|]. intros i. cbn. rewrite Nat.sub_0_r. reflexivity.
  - assert (Hs : bit_text s) by (intros d Hd; apply Hb; right; assumption).
    assert (Hlen : length (rev (list_ascii_of_string s)) = String.length s).
    { rewrite rev_length. clear. induction s; cbn; congruence. }
    assert (Hgo : forall b, (b = true <-> c = "1"%char) -> exists n, bits_of s (2 * acc + Z.b2z b) = Some n /\ 0 <= n /\
      forall i, Z.testbit n (Z.of_nat i) = true <->
        if (i <? String.length (String c s))%nat then nth_error (rev (list_ascii_of_string (String c s))) i = Some "1"%char
        else Z.testbit acc (Z.of_nat (i - String.length (String c s))) = true).
    { intros b Hbc. destruct (IH (2 * acc + Z.b2z b) Hs) as (n & E & Hn & Hi); [destruct b; cbn [Z.b2z]; lia|].
      exists n. split; [assumption|]. split; [assumption|]. intros i. rewrite Hi. cbn [String.length list_ascii_of_string rev].
      destruct (i <? String.length s)%nat eqn:E1.
      - apply Nat.ltb_lt in E1. replace (i <? S (String.length s))%nat with true by (symmetry; apply Nat.ltb_lt; lia).
        rewrite nth_error_app1 by lia. reflexivity.
      - apply Nat.ltb_ge in E1. destruct (i <? S (String.length s))%nat eqn:E2.
        + apply Nat.ltb_lt in E2. assert (i = String.length s) as -> by lia. rewrite nth_error_app2 by lia.
          rewrite Hlen, !Nat.sub_diag. change (Z.of_nat 0) with 0. rewrite Z.testbit_0_r. cbn [nth_error].
          rewrite Hbc. split; congruence.
        + apply Nat.ltb_ge in E2. replace (Z.of_nat (i - String.length s)) with (Z.succ (Z.of_nat (i - S (String.length s)))) by lia.
          rewrite Z.testbit_succ_r by lia. reflexivity. }
    assert (Hcc : c = "0"%char \/ c = "1"%char) by (apply Hb; left; reflexivity).
    destruct Hcc as [->| ->]; cbn [b2z Z.eqb].
    + change (b2z "0" =? 48) with true. cbn iota. replace (2 * acc) with (2 * acc + Z.b2z false) by (cbn; lia). apply Hgo. split; discriminate.
    + change (b2z "1" =? 48) with false. change (b2z "1" =? 49) with true. cbn iota. apply (Hgo true). split; reflexivity.
Qed.

Lemma substring_firstn N : forall s, list_ascii_of_string (substring 0 N s) = firstn N (list_ascii_of_string s).
Proof. induction N as [|N IH]; intros [|c s]; cbn; try reflexivity. rewrite IH. reflexivity. Qed.
Lemma substring_bits N s : bit_text s -> bit_text (substring 0 N s).
Proof.
  unfold bit_text. rewrite substring_firstn. intros H c Hc. apply H.
  rewrite <- (firstn_skipn N). apply in_or_app. left. assumption.
Qed.
Lemma bit_text_dec s : {bit_text s} + {~ bit_text s}.
Proof.
  destruct (Forall_dec (fun c => c = "0"%char \/ c = "1"%char)) with (l := list_ascii_of_string s) as [H|H].
  - intros c. destruct (ascii_dec c "0"); [left; auto|]. destruct (ascii_dec c "1"); [left; auto|right; tauto].
  - left. intros c Hc. rewrite Forall_forall in H. apply H. assumption.
  - right. intros C. apply H. apply Forall_forall. assumption.
Qed.

Lemma bitset_spec strict N s :
  (accepted strict N s -> exists n, bitset strict N s = Some n /\ flags_of N s n) /\
  (~ accepted strict N s -> bitset strict N s = None).
Proof.
  assert (Hok : bit_text (substring 0 N s) -> exists n, bits_of (substring 0 N s) 0 = Some n /\ flags_of N s n).
  { intros H. destruct (bits_of_some _ 0 H) as (n & E & Hn & Hi); [lia|]. exists n. split; [assumption|]. split; [assumption|].
    cbv zeta. intros i. rewrite Hi, substring_firstn, Z.bits_0.
    assert (Hl : length (rev (firstn N (list_ascii_of_string s))) = String.length (substring 0 N s)).
    { rewrite <- substring_firstn, rev_length. generalize (substring 0 N s). clear. intros s. induction s; cbn; congruence. }
    destruct (i <? String.length (substring 0 N s))%nat eqn:E1; [reflexivity|]. apply Nat.ltb_ge in E1.
    rewrite (proj2 (nth_error_None _ _)) by lia. split; discriminate. }
  unfold accepted, bitset. destruct (bit_text_dec s) as [H|H].
  - destruct (bits_of_some s 0 H) as (n & -> & _); [lia|]. pose proof (substring_bits N s H) as H2.
    split; [intros _; apply Hok; assumption|]. destruct strict; intros C; contradiction.
  - rewrite bits_of_none by assumption. destruct strict; [split; [contradiction|reflexivity]|].
    split; [apply Hok|]. intros C. apply bits_of_none. assumption.
Qed.

Lemma eqb_dec_if {A} a b (x y : A) : (if String.eqb a b then x else y) = (if string_dec a b then x else y).
Proof. destruct (string_dec a b) as [->|H]; [rewrite String.eqb_refl; reflexivity|]. apply String.eqb_neq in H. rewrite H. reflexivity. Qed.
Lemma file_code_text s : file_code s = file_text s.
Proof. unfold file_code, file_text. rewrite !eqb_dec_if. reflexivity. Qed.
Lemma zone_code_text s : zone_code s = zone_text s.
Proof. unfold zone_code, zone_text. rewrite !eqb_dec_if. reflexivity. Qed.

(** The flags are determined by the text. *)
Lemma flags_unique N s n m : flags_of N s n -> flags_of N s m -> n = m.
Proof.
  intros [Hn H] [Hm H']. cbv zeta in *. apply Z.bits_inj'. intros i Hi. rewrite <- (Z2Nat.id i) by assumption.
  specialize (H (Z.to_nat i)). specialize (H' (Z.to_nat i)). apply eq_true_iff_eq. rewrite H, H'. reflexivity.
Qed.

Lemma zones_echo_ok strict s n : (forall z, zone_echo_mode strict z s = Ok (zone_with_flags n z)) ->
  forall todo done, zones_echo_mode strict done todo s = Ret (done ++ map (zone_with_flags n) todo) tt.
Proof.
  intros H. induction todo as [|z todo IH]; intros done; cbn [zones_echo_mode map]; [rewrite app_nil_r; reflexivity|].
  rewrite H, IH, <- app_assoc. reflexivity.
Qed.

Lemma echo_modes strict file zone f :
  (* the file's text is not accepted: nothing changes *)
  (file <> "leave"%string -> ~ accepted strict 7 (file_text file) ->
     exists m, set_echo_mode strict file zone f = Thr f (ETec m)) /\
  (* otherwise the file's flags are set *)
  (file = "leave"%string \/ accepted strict 7 (file_text file) ->
   exists n, ((file = "leave"%string /\ n = f_echo f) \/ (file <> "leave"%string /\ flags_of 7 (file_text file) n)) /\
   (zone = "leave"%string -> set_echo_mode strict file zone f = Ret (with_flags f n) tt) /\
   (zone <> "leave"%string -> accepted strict 9 (zone_text zone) ->
      exists k, flags_of 9 (zone_text zone) k /\
        set_echo_mode strict file zone f = Ret (with_zones (with_flags f n) (map (zone_with_flags k) (f_zones f))) tt) /\
   (zone <> "leave"%string -> ~ accepted strict 9 (zone_text zone) ->
      (f_zones f = [] -> set_echo_mode strict file zone f = Ret (with_flags f n) tt) /\
      (f_zones f <> [] -> exists m, set_echo_mode strict file zone f = Thr (with_flags f n) (ETec m)))).
Proof.
  destruct (bitset_spec strict 7 (file_text file)) as [B1 B2]. destruct (bitset_spec strict 9 (zone_text zone)) as [C1 C2].
  split.
  - intros Hl Hn. unfold set_echo_mode, bind. apply String.eqb_neq in Hl. rewrite Hl.
    unfold file_echo_mode. rewrite file_code_text, (B2 Hn). eauto.
  - intros Hf. assert (Hfile : exists n, ((file = "leave"%string /\ n = f_echo f) \/ (file <> "leave"%string /\ flags_of 7 (file_text file) n)) /\
      (if String.eqb file "leave" then ret tt
       else fun f => match file_echo_mode strict f file with Ok f' => Ret f' tt | Err e => Thr f e | UB => Undef end) f = Ret (with_flags f n) tt).
    { destruct (String.eqb file "leave") eqn:E.
      - apply String.eqb_eq in E. exists (f_echo f). split; [auto|]. destruct f. reflexivity.
      - apply String.eqb_neq in E. destruct Hf as [Hf|Hf]; [contradiction|]. destruct (B1 Hf) as (n & En & Hn). exists n. split; [auto|].
        unfold file_echo_mode. rewrite file_code_text, En. reflexivity. }
    destruct Hfile as (n & Hn & En). exists n. split; [assumption|].
    unfold set_echo_mode, bind. rewrite En. cbn [with_flags f_zones].
    split; [|split].
    + intros ->. cbn. reflexivity.
    + intros Hz Ha. apply String.eqb_neq in Hz. rewrite Hz. destruct (C1 Ha) as (k & Ek & Hk). exists k. split; [assumption|].
      rewrite (zones_echo_ok strict zone k) by (intros z; unfold zone_echo_mode; rewrite zone_code_text, Ek; reflexivity). reflexivity.
    + intros Hz Ha. apply String.eqb_neq in Hz. rewrite Hz. specialize (C2 Ha). split.
      * intros E. change (f_zones (with_flags f n)) with (f_zones f). rewrite E. unfold set_zones, with_flags. cbn. rewrite <- E. reflexivity.
      * intros E. change (f_zones (with_flags f n)) with (f_zones f). destruct (f_zones f) as [|z zs] eqn:Ez; [congruence|]. cbn [zones_echo_mode]. unfold zone_echo_mode. rewrite zone_code_text, C2.
        eexists. unfold set_zones, with_flags. cbn. rewrite <- Ez. reflexivity.
Qed.
