(** The grid of arrays computes what one torus would. *)

From Coq Require Import ZArith List Bool Lia.
From Verif Require Import Base M_Flags M_Loop M_RS1 M_RS2 M_RS3 M_Heap M_PD1 M_PD2 M_PD3 M_World M_Client M_Examples M_Ring M_Torus
  Spec Spec_Loop Spec_Array Spec_Hist Spec_Reach Spec_Mode Spec_Client Spec_Ring Spec_Torus
  L_Base L_RS L_Range L_Loop L_Heap L_Lin L_Rep L_PD1 L_PD2 L_PD3 L_Kind L_Copy L_World L_Sim L_Access L_Copies L_Client L_Examples L_Link L_Ring L_Grid.
Import ListNotations.
Open Scope Z_scope.

Section Loops.
Context {V : Type}.
Notation shapes := (nat -> option (kind * list dim_shape)).
Notation store := (@store V).

Lemma ht_size3 F (sh : shapes) (f : store) a N l0 l1 l2 g0 g1 g2 :
  sh a = Some (K3 N l0 l1 l2, [g0; g1; g2]) -> ht F (at_st sh f) (size_D3 a) (fun s aw => s = size3_of g0 g1 g2 /\ at_st sh f aw).
Proof.
  intros Hs h w aw HA HP. pose proof HP as (_ & H2 & _). specialize (H2 a). rewrite Hs in H2. unfold shp in H2.
  destruct (afind aw a) as [[k [|gs g|]]|] eqn:Ea; try discriminate H2. injection H2 as -> ->.
  destruct (after_rel _ _ _ _ HA) as (own & lk & HR). pose proof (r_arr _ _ _ _ _ HR a) as Ho.
  rewrite Ea in Ho. unfold entry_ok in Ho. destruct (find w a) as [[k o]|] eqn:Ef; [|contradiction].
  destruct Ho as (-> & HN & _ & _ & Hl & _). unfold liv in Hl. destruct o as [o|o|o]; try contradiction.
  destruct (own a) as [|b [|t1 [|t2 [|? ?]]]]; try contradiction. destruct Hl as (Hsz & _).
  exists [], w, aw, (size3_of g0 g1 g2). rewrite app_nil_r. split; [|split; [split; [exact HA|constructor]|split; [reflexivity|exact HP]]].
  unfold size_D3. now rewrite Ef, Hsz.
Qed.

Lemma ht_over3 F chk (sh : shapes) (f : store) ts a N l0 l1 l2 n i p n1 i1 p1 n2 i2 p2 t0 t1 t2 (body : Z -> Z -> Z -> M (world V) unit) :
  sh a = Some (K3 N l0 l1 l2, [(n, i, p); (n1, i1, p1); (n2, i2, p2)]) -> dim_fits (n, i, p) -> dim_fits (n1, i1, p1) -> dim_fits (n2, i2, p2) ->
  (forall x y z f', in_box [region (n, i, p) t0; region (n1, i1, p1) t1; region (n2, i2, p2) t2] [x; y; z] ->
     agree f f' ts [region (n, i, p) t0; region (n1, i1, p1) t1; region (n2, i2, p2) t2] [x; y; z] ->
     ht F (at_st sh f') (body x y z) (fun _ => at_st sh (over f' ts (zs_eqb [x; y; z])))) ->
  ht F (at_st sh f) (over3 chk a t0 t1 t2 body)
    (fun _ => at_st sh (over f ts (in_boxb [region (n, i, p) t0; region (n1, i1, p1) t1; region (n2, i2, p2) t2]))).
Proof.
  intros Hs Hf Hf1 Hf2 Hb. unfold over3. eapply ht_let; [apply (ht_size3 F sh f a N l0 l1 l2 _ _ _ Hs)|].
  destruct (regions_D3 chk n i p n1 i1 p1 n2 i2 p2 Hf Hf1 Hf2) as (_ & Hr & _). destruct (Hr t0 t1 t2) as (r & Er & Efc).
  rewrite mk_sizeT3_fits in Er by assumption. eapply ht_lift_let; [exact Er|].
  intros h w aw HA HP. rewrite loop_D3, Efc.
  2:{ rewrite Efc. repeat constructor; destruct t0, t1, t2; cbn; unfold dim_fits, in_int in *; lia. }
  revert h w aw HA HP. apply (ht_box F sh f ts). intros q f' Hq Hag. pose proof Hq as Hq0.
  apply in_box_cons in Hq. destruct Hq as (x & q' & -> & Hx & Hq'). apply in_box_cons in Hq'.
  destruct Hq' as (y & q & -> & Hy & Hq'). apply in_box_cons in Hq'. destruct Hq' as (z & q' & -> & Hz & Hq').
  apply in_box_nil in Hq'. subst q'. cbn [call3 nth]. now apply Hb.
Qed.

(** The loop over the interior, in any of the dimensions. *)
Lemma ht_inner F chk (sh : shapes) (f : store) ts a gr ws t (body : list Z -> M (world V) unit) :
  fine gr -> (1 <= length gr <= 3)%nat -> at_tile gr t ws -> sh a = Some (kind_of gr, shape gr ws) ->
  let B := regions (shape gr ws) (inner gr) in
  (forall q f', in_box B q -> agree f f' ts B q -> ht F (at_st sh f') (body q) (fun _ => at_st sh (over f' ts (zs_eqb q)))) ->
  ht F (at_st sh f) (over_tags chk a (inner gr) body) (fun _ => at_st sh (over f ts (in_boxb B))).
Proof.
  intros Hf Hd Ht Hs B Hb. subst B.
  destruct gr as [|[g0 l0] gr]; [cbn in Hd; lia|]. destruct t as [|x0 t], ws as [|w0 ws]; try contradiction Ht. destruct Ht as [T0 Ht].
  destruct (fine_cons _ _ _ _ _ Hf T0) as (B1 & B2 & B3 & Hf1 & _).
  assert (D0 : dim_fits (g0, w0, g0)) by (unfold dim_fits; lia). clear Hf.
  destruct gr as [|[g1 l1] gr].
  { destruct t, ws; try contradiction Ht.
    apply (ht_over1 F chk sh f ts a 2 center g0 w0 g0 RIN); [exact Hs|exact D0|]. intros x f' Hx Hag. apply Hb; [|exact Hag].
    apply in_box_cons. exists x, []. split; [reflexivity|]. split; [exact Hx|constructor]. }
  destruct t as [|x1 t], ws as [|w1 ws]; try contradiction Ht. destruct Ht as [T1 Ht].
  destruct (fine_cons _ _ _ _ _ Hf1 T1) as (C1 & C2 & C3 & Hf2 & _).
  assert (D1 : dim_fits (g1, w1, g1)) by (unfold dim_fits; lia). clear Hf1.
  destruct gr as [|[g2 l2] gr].
  { destruct t, ws; try contradiction Ht.
    apply (ht_over2 F chk sh f ts a 2 center center g0 w0 g0 g1 w1 g1 RIN RIN); [exact Hs|exact D0|exact D1|]. intros x y f' Hx Hy Hag. apply Hb; [|exact Hag].
    apply in_box_cons. exists x, [y]. split; [reflexivity|]. split; [exact Hx|]. apply in_box_cons. exists y, []. split; [reflexivity|]. split; [exact Hy|constructor]. }
  destruct t as [|x2 t], ws as [|w2 ws]; try contradiction Ht. destruct Ht as [T2 Ht].
  destruct (fine_cons _ _ _ _ _ Hf2 T2) as (E1 & E2 & E3 & _ & _).
  assert (D2 : dim_fits (g2, w2, g2)) by (unfold dim_fits; lia). clear Hf2.
  destruct gr as [|d gr]; [|cbn in Hd; lia]. destruct t, ws; try contradiction Ht.
  apply (ht_over3 F chk sh f ts a 2 center center center g0 w0 g0 g1 w1 g1 g2 w2 g2 RIN RIN RIN); [exact Hs|exact D0|exact D1|exact D2|].
  intros x y z f' Hq Hag. apply Hb; assumption.
Qed.

End Loops.

Section Torus.
Context {V : Type}.
Variables (F : nat -> bool) (chk : bool) (gr : list direction).
Hypothesis Hf : fine gr.
Hypothesis Hd : (1 <= length gr <= 3)%nat.
Notation store := (@store V).
Implicit Types (f : store) (G : list Z -> V) (t : list nat) (ws q : list Z).

Let shl := map (fun ws => (kind_of gr, shape gr ws)) (choices (map snd gr)).
Let sh := shapes_of shl.
Let ls := extents gr.
Let all := map (fun _ : direction => RALL) gr.

Lemma sht_at t ws : at_tile gr t ws -> sh (tile gr t) = Some (kind_of gr, shape gr ws).
Proof. intros H. unfold sh, shapes_of, shl. rewrite nth_error_map, (widths_at _ _ _ H). reflexivity. Qed.

Lemma ut_ok t ws c q : at_tile gr t ws -> 0 <= c < 2 -> in_box (regions (shape gr ws) all) q -> usable sh (ut gr t c q).
Proof.
  intros H Hc Hq. exists (kind_of gr), (shape gr ws). split; [apply sht_at, H|]. unfold accepts. cbn [ut p_comp p_at p_fl]. split.
  - destruct gr as [|? [|? [|? ?]]]; cbn; lia.
  - rewrite locs_of by exact Hd. apply all_dims; [apply (at_tile_len _ _ _ H)|exact Hq].
Qed.

Lemma look_ut f t c q : look f (ut gr t c q) = f (tile gr t) c q.
Proof. unfold look. cbn [ut p_arr p_comp p_at p_fl]. now rewrite slot_C. Qed.

(** ** Exchange *)

Definition filled G f t us : Prop :=
  forall ws q, at_tile gr t ws -> in_box (regions (shape gr ws) us) q -> f (tile gr t) 0 q = Some (G (wrap ls (point_of gr t q))).

Lemma carry_hit f d s B S c q : in_box B q -> carry f d s B S d c q = f s c (vsub q S).
Proof. intros H. apply in_boxb_iff in H. unfold carry. now rewrite Nat.eqb_refl, H. Qed.
Lemma carry_skip f d s B S x c q : (x = d -> ~ in_box B q) -> carry f d s B S x c q = f x c q.
Proof.
  intros H. unfold carry. destruct (Nat.eqb_spec x d) as [->|]; [|reflexivity]. destruct (in_boxb B q) eqn:E; [|reflexivity].
  apply in_boxb_iff in E. now destruct (H eq_refl).
Qed.

Lemma some_tag e u : (e < length gr)%nat -> u <> RIN -> u <> RALL -> Exists (fun r => r <> RIN /\ r <> RALL) (tags gr e u).
Proof.
  clear. revert e. induction gr as [|d g IH]; intros e He H1 H2; [cbn in He; lia|]. destruct e as [|e]; cbn [tags].
  - apply Exists_cons_hd. auto.
  - apply Exists_cons_tl. apply IH; [cbn in He; lia|assumption..].
Qed.

Lemma widths_pos t ws : at_tile gr t ws -> Forall (fun w => 0 <= w) ws.
Proof.
  revert t ws Hf. clear. induction gr as [|[g l] g' IH]; intros [|x t] [|w ws] Hf H; try contradiction H; [constructor|].
  destruct H as [H1 H2]. destruct (fine_cons _ _ _ _ _ Hf H1) as (B1 & B2 & B3 & B4 & _). constructor; [lia|]. exact (IH t ws B4 H2).
Qed.

(** The regions of one array along direction [e] do not meet. *)
Lemma apart e t ws q u v : (e < length gr)%nat -> at_tile gr t ws -> u <> RALL -> v <> RALL -> u <> v ->
  in_box (regions (shape gr ws) (tags gr e u)) q -> ~ in_box (regions (shape gr ws) (tags gr e v)) q.
Proof.
  intros He Ht Hu Hv Hn H1 H2. apply Hn. apply (tags_apart gr e ws q u v); try assumption.
  - apply (at_tile_len _ _ _ Ht).
  - apply (widths_pos t ws Ht).
Qed.

Lemma join_along_ok G f e t ws (D : list nat -> Prop) :
  (e < length gr)%nat -> at_tile gr t ws -> (forall x, filled G f x (tags gr e RIN)) ->
  (forall x, D x -> (exists wx, at_tile gr x wx) /\ filled G f x (tags gr e RP) /\ filled G f (next gr e x) (tags gr e RN)) ->
  ht F (at_st sh f) (join_along chk gr e t)
    (fun _ aw => exists f', at_st sh f' aw /\ (forall x, filled G f' x (tags gr e RIN)) /\
       (forall x, D x \/ x = t -> (exists wx, at_tile gr x wx) /\ filled G f' x (tags gr e RP) /\ filled G f' (next gr e x) (tags gr e RN))).
Proof.
  intros He Ht HI HD. destruct (neighbour gr Hf e t ws Ht He) as (ws' & S & S' & Ht' & L1 & L2 & M1 & M2).
  set (t' := next gr e t) in *. set (T := tile gr t) in *. set (T' := tile gr t') in *.
  set (B := regions (shape gr ws) (tags gr e RP)) in *. set (B' := regions (shape gr ws') (tags gr e RN)) in *.
  assert (K : forall w, length w = length gr -> k_locs (kind_of gr) = repeat center (length (shape gr w))).
  { intros w0 Hw. rewrite locs_of by exact Hd. now apply shape_centers. }
  pose proof (proj2 (at_tile_len _ _ _ Ht)) as Lw. pose proof (proj2 (at_tile_len _ _ _ Ht')) as Lw'.
  unfold join_along. fold t' T T'.
  eapply ht_bind.
  { apply (ht_link F chk sh f T T' (kind_of gr) _ _ _ _ _ _ _ L1 (K _ Lw) (sht_at t ws Ht) (sht_at t' ws' Ht')).
    apply some_tag; [exact He|discriminate..]. }
  intros y. cbn beta. clear y.
  eapply ht_bind.
  { apply (ht_link F chk sh _ T' T (kind_of gr) _ _ _ _ _ _ _ L2 (K _ Lw') (sht_at t' ws' Ht') (sht_at t ws Ht)).
    apply some_tag; [exact He|discriminate..]. }
  intros y. cbn beta. clear y. apply ht_ret. intros aw HP. eexists. split; [exact HP|].
  (** which elements are left alone *)
  assert (N1 : forall x wx q u, at_tile gr x wx -> in_box (regions (shape gr wx) (tags gr e u)) q -> u = RIN \/ u = RN ->
             forall f0, carry f0 T T' B S (tile gr x) 0 q = f0 (tile gr x) 0 q).
  { intros x wx q u Hx Hq Hu f0. apply carry_skip. intros E. apply (tile_inj gr x t wx ws Hx Ht) in E. subst x.
    rewrite (at_tile_fun _ _ _ _ Hx Ht) in Hq. apply (apart e t ws q u RP); try assumption; destruct Hu as [-> | ->]; discriminate. }
  assert (N2 : forall x wx q u, at_tile gr x wx -> in_box (regions (shape gr wx) (tags gr e u)) q -> u = RIN \/ u = RP ->
             forall f0, carry f0 T' T B' S' (tile gr x) 0 q = f0 (tile gr x) 0 q).
  { intros x wx q u Hx Hq Hu f0. apply carry_skip. intros E. apply (tile_inj gr x t' wx ws' Hx Ht') in E. subst x.
    rewrite (at_tile_fun _ _ _ _ Hx Ht') in Hq. apply (apart e t' ws' q u RN); try assumption; destruct Hu as [-> | ->]; discriminate. }
  split.
  { intros x wx q Hx Hq. rewrite (N2 x wx q RIN Hx Hq) by auto. rewrite (N1 x wx q RIN Hx Hq) by auto. exact (HI x wx q Hx Hq). }
  intros x Hx. split; [|split].
  - destruct Hx as [Hx| ->]; [apply (HD x Hx)|now exists ws].
  - intros wx q Ex Hq. rewrite (N2 x wx q RP Ex Hq) by auto.
    destruct (list_eq_dec Nat.eq_dec x t) as [->|Nx].
    + pose proof (at_tile_fun _ _ _ _ Ex Ht) as ->. fold T. rewrite carry_hit by exact Hq. destruct (M1 q Hq) as [J1 J2].
      unfold T'. rewrite (HI t' ws' _ Ht' J1). fold ls in J2. now rewrite J2.
    + rewrite carry_skip.
      * destruct Hx as [Hx|Hx]; [|congruence]. exact (proj1 (proj2 (HD x Hx)) wx q Ex Hq).
      * intros E. destruct Nx. exact (tile_inj gr x t wx ws Ex Ht E).
  - intros wx q Ex Hq. destruct (list_eq_dec Nat.eq_dec (next gr e x) t') as [Ey|Ny].
    + rewrite Ey in *. pose proof (at_tile_fun _ _ _ _ Ex Ht') as ->. fold T'. rewrite carry_hit by exact Hq. destruct (M2 q Hq) as [J1 J2].
      unfold T. rewrite (N1 t ws _ RIN Ht J1) by auto. rewrite (HI t ws _ Ht J1). fold ls in J2. now rewrite J2.
    + rewrite carry_skip.
      * rewrite (N1 _ wx q RN Ex Hq) by auto. destruct Hx as [Hx|Hx]; [|subst x; now destruct Ny].
        exact (proj2 (proj2 (HD x Hx)) wx q Ex Hq).
      * intros E. destruct Ny. exact (tile_inj gr _ t' wx ws' Ex Ht' E).
Qed.

Lemma in_middle {A} (l l1 l2 : list A) x : l = l1 ++ x :: l2 -> In x l.
Proof. intros ->. apply in_or_app. right. now left. Qed.

Lemma exchange_ok G f e :
  (e < length gr)%nat -> (forall x, filled G f x (tags gr e RIN)) ->
  ht F (at_st sh f) (run (tiles gr) (join_along chk gr e))
    (fun _ aw => exists f', at_st sh f' aw /\ forall x, filled G f' x (tags gr e RALL)).
Proof.
  intros He HI. eapply ht_conseq.
  - apply (ht_run F (fun l aw => exists f', at_st sh f' aw /\ (forall x, filled G f' x (tags gr e RIN)) /\
      (forall x, In x l -> (exists wx, at_tile gr x wx) /\ filled G f' x (tags gr e RP) /\ filled G f' (next gr e x) (tags gr e RN))) (tiles gr)).
    intros l1 t l2 E. apply ht_exists. intros f1. apply ht_pre. intros aw0 (HP & H1 & H2).
    pose proof (in_middle _ _ _ _ E) as Ht. apply in_tiles in Ht. destruct Ht as (ws & Ht).
    eapply ht_conseq; [apply (join_along_ok G f1 e t ws (fun x => In x l1) He Ht H1 H2)|intros aw ->; exact HP|].
    intros y0 aw (f2 & HP2 & H3 & H4). exists f2. split; [exact HP2|]. split; [exact H3|]. intros x Hx. apply H4.
    apply in_app_or in Hx. destruct Hx as [Hx|[<-|[]]]; auto.
  - intros aw HP. exists f. split; [exact HP|]. split; [exact HI|]. intros x [].
  - intros y0 aw (f2 & HP2 & H3 & H4). exists f2. split; [exact HP2|]. intros x ws q Hx Hq.
    destruct (tags_split gr Hf e x ws q Hx He Hq) as [H|[H|H]].
    + destruct (next_onto gr e x ws Hx He) as (t' & ws' & Ht' & E). subst x.
      apply (proj2 (proj2 (H4 t' (proj2 (in_tiles gr t') (ex_intro _ ws' Ht'))))) with (ws := ws); assumption.
    + apply (H3 x ws); assumption.
    + apply (proj1 (proj2 (H4 x (proj2 (in_tiles gr x) (ex_intro _ ws Hx))))) with (ws := ws); assumption.
Qed.

(** The regions right after the exchange along the first [e] directions. *)
Definition reached (e : nat) : list ra := if Nat.ltb e (length gr) then tags gr e RIN else all.

Lemma reached_next e : (e < length gr)%nat -> reached (S e) = tags gr e RALL.
Proof.
  intros H. unfold reached. destruct (Nat.ltb_spec (S e) (length gr)) as [L|L]; [now apply tags_next|]. unfold all. symmetry. apply tags_last. lia.
Qed.

Lemma exchanges_ok G f :
  (forall x, filled G f x (inner gr)) ->
  ht F (at_st sh f) (run (seq 0 (length gr)) (fun e => run (tiles gr) (join_along chk gr e)))
    (fun _ aw => exists f', at_st sh f' aw /\ forall x, filled G f' x all).
Proof.
  intros HI. eapply ht_conseq.
  - apply (ht_run F (fun l aw => exists f', at_st sh f' aw /\ forall x, filled G f' x (reached (length l))) (seq 0 (length gr))).
    intros l1 e l2 E. pose proof (seq_split _ _ _ _ _ E) as He.
    assert (El : length l1 = e).
    { pose proof (f_equal (fun l => nth (length l1) l O) E) as X. cbn beta in X. rewrite nth_middle in X.
      assert (Hl : (length l1 < length gr)%nat) by (pose proof (f_equal (@length nat) E) as Y; rewrite seq_length, app_length in Y; cbn in Y; lia).
      rewrite seq_nth in X by exact Hl. cbn in X. exact X. }
    apply ht_exists. intros f1. apply ht_pre. intros aw0 (HP & H1).
    eapply ht_conseq; [apply (exchange_ok G f1 e)|intros aw ->; exact HP|].
    + lia.
    + intros x. rewrite El in H1. specialize (H1 x). unfold reached in H1. destruct (Nat.ltb_spec e (length gr)); [exact H1|lia].
    + intros y0 aw (f2 & HP2 & H2). exists f2. split; [exact HP2|]. intros x. rewrite app_length, El. cbn [length]. rewrite Nat.add_1_r, reached_next by lia. apply H2.
  - intros aw HP. exists f. split; [exact HP|]. intros x. unfold reached. cbn [length]. destruct (Nat.ltb_spec 0 (length gr)); [|lia].
    rewrite tags_0 by (intros X; pose proof Hd as Hd'; rewrite X in Hd'; cbn in Hd'; lia). apply HI.
  - intros y0 aw (f2 & HP2 & H2). exists f2. split; [exact HP2|]. intros x. specialize (H2 x). unfold reached in H2.
    rewrite seq_length, Nat.ltb_irrefl in H2. exact H2.
Qed.

(** ** Advancing *)

Definition holds_at c G f : Prop :=
  forall t ws q, at_tile gr t ws -> in_box (regions (shape gr ws) (inner gr)) q -> f (tile gr t) c q = Some (G (point_of gr t q)).
Definition done_at c G f (l : list (list nat)) : Prop :=
  forall t ws q, In t l -> at_tile gr t ws -> in_box (regions (shape gr ws) (inner gr)) q -> f (tile gr t) c q = Some (G (point_of gr t q)).

Lemma done_all_at c G f : done_at c G f (tiles gr) -> holds_at c G f.
Proof. intros H t ws q Ht Hq. apply (H t ws q); [|exact Ht|exact Hq]. apply in_tiles. now exists ws. Qed.

Lemma done_over_at f t ws c G l :
  at_tile gr t ws -> done_at c G f l ->
  done_at c G (over f [(tile gr t, c, fun s => G (point_of gr t s))] (in_boxb (regions (shape gr ws) (inner gr)))) (l ++ [t]).
Proof.
  intros E H x wx q Hx Ex Hq. destruct (list_eq_dec Nat.eq_dec x t) as [->|Nx].
  - pose proof (at_tile_fun _ _ _ _ Ex E) as ->. erewrite over_hit; [|apply in_boxb_iff; exact Hq|].
    2:{ cbn [pick]. rewrite Nat.eqb_refl, Z.eqb_refl. reflexivity. }
    reflexivity.
  - rewrite over_skip.
    2:{ cbn [pick]. destruct (Nat.eqb_spec (tile gr x) (tile gr t)) as [E'|]; [|reflexivity]. destruct Nx. exact (tile_inj gr x t wx ws Ex E E'). }
    apply in_app_or in Hx. destruct Hx as [Hx|[->|[]]]; [|congruence]. now apply H with (ws := wx).
Qed.

Lemma hold_over_at f v t c c' G B : holds_at c' G f -> c <> c' -> holds_at c' G (over f [(tile gr t, c, v)] B).
Proof.
  intros H Hc x wx q Ex Hq. rewrite over_skip; [now apply H with (ws := wx)|]. cbn [pick].
  destruct (Z.eqb_spec c' c); [congruence|]. now rewrite andb_false_r.
Qed.

Variables (stc : list V -> V) (ds : list (list Z)).
Hypothesis Hds : Forall (near gr) ds.

Lemma around_at_ok f t ws q (ds' : list (list Z)) (v : list Z -> V) :
  at_tile gr t ws -> in_box (regions (shape gr ws) (inner gr)) q -> Forall (near gr) ds' ->
  (forall p, in_box (regions (shape gr ws) all) p -> f (tile gr t) 0 p = Some (v p)) ->
  ht F (at_st sh f) (around_at chk gr t q ds') (fun x aw => x = map (fun d => v (vplus q d)) ds' /\ at_st sh f aw).
Proof.
  intros E Hq Hn Hv. induction Hn as [|d ds' Hn _ IH]; cbn [around_at map].
  - apply ht_ret. auto.
  - destruct (near_in gr Hf t ws q d E Hq Hn) as [J1 J2]. fold all in J1. eapply ht_lift_let; [exact J2|].
    eapply ht_let; [apply (ht_get_st F chk sh f (ut gr t 0 (vplus q d)) (v (vplus q d)))|].
    + apply (ut_ok t ws); [exact E|lia|exact J1].
    + rewrite look_ut. apply Hv, J1.
    + eapply ht_let; [exact IH|]. apply ht_ret. auto.
Qed.

Lemma near_len d : near gr d -> length d = length gr.
Proof. unfold near. clear. induction 1; cbn [length]; congruence. Qed.

Lemma advance_at_ok G f t ws l :
  at_tile gr t ws -> (forall x, filled G f x all) -> done_at 1 (torus_step ls stc ds G) f l ->
  ht F (at_st sh f) (advance_at chk gr stc ds t)
    (fun _ aw => exists f', at_st sh f' aw /\ (forall x, filled G f' x all) /\ done_at 1 (torus_step ls stc ds G) f' (l ++ [t])).
Proof.
  intros E HF HD. unfold advance_at. eapply ht_conseq.
  - apply (ht_inner F chk sh f [(tile gr t, 1, fun s => torus_step ls stc ds G (point_of gr t s))] (tile gr t) gr ws t); [exact Hf|exact Hd|exact E|apply sht_at, E|].
    intros q f' Hq Hag.
    eapply ht_let.
    + apply (around_at_ok f' t ws q ds (fun p => G (wrap ls (point_of gr t p))) E Hq Hds).
      intros p Hp. rewrite Hag; [now apply (HF t ws)|]. left. cbn [pick]. now rewrite andb_false_r.
    + apply (ht_set1 F chk sh f' (ut gr t 1 q)); [apply (ut_ok t ws); [exact E|lia|now apply (inner_all gr Hf t)]|apply slot_C|].
      unfold torus_step. f_equal. apply map_ext_in. intros d Hin. rewrite round_wrap, point_plus; [reflexivity|].
      rewrite Forall_forall in Hds. rewrite (near_len d (Hds d Hin)).
      apply (in_regions_len gr ws (inner gr)); [apply map_length|apply (at_tile_len _ _ _ E)|exact Hq].
  - auto.
  - intros y0 aw HP. eexists. split; [exact HP|]. split.
    + intros x wx p Ex Hp. rewrite over_skip by (cbn [pick]; now rewrite andb_false_r). now apply (HF x wx).
    + now apply done_over_at.
Qed.

Lemma accept_at_ok G f t ws l :
  at_tile gr t ws -> holds_at 1 G f -> done_at 0 G f l ->
  ht F (at_st sh f) (accept_at chk gr t) (fun _ aw => exists f', at_st sh f' aw /\ holds_at 1 G f' /\ done_at 0 G f' (l ++ [t])).
Proof.
  intros E HH HD. unfold accept_at. eapply ht_conseq.
  - apply (ht_inner F chk sh f [(tile gr t, 0, fun s => G (point_of gr t s))] (tile gr t) gr ws t); [exact Hf|exact Hd|exact E|apply sht_at, E|].
    intros q f' Hq Hag. pose proof (inner_all gr Hf t ws q E Hq) as Ha.
    eapply ht_let.
    + apply (ht_get_st F chk sh f' (ut gr t 1 q) (G (point_of gr t q))); [apply (ut_ok t ws); [exact E|lia|exact Ha]|].
      rewrite look_ut, Hag; [now apply (HH t ws)|]. left. cbn [pick]. now rewrite andb_false_r.
    + apply (ht_set1 F chk sh f' (ut gr t 0 q)); [apply (ut_ok t ws); [exact E|lia|exact Ha]|apply slot_C|reflexivity].
  - auto.
  - intros y0 aw HP. eexists. split; [exact HP|]. split.
    + apply hold_over_at; [exact HH|discriminate].
    + now apply done_over_at.
Qed.

Lemma torus_pass_ok G f :
  holds_at 0 G f ->
  ht F (at_st sh f) (torus_pass chk gr stc ds) (fun _ aw => exists f', at_st sh f' aw /\ holds_at 0 (torus_step ls stc ds G) f').
Proof.
  intros HH. unfold torus_pass. eapply ht_bind.
  { apply (exchanges_ok G f). intros x ws q Hx Hq. unfold ls. rewrite (wrap_inside gr Hf x ws q Hx Hq). now apply (HH x ws). }
  intros []. apply ht_exists. intros f1. apply ht_pre. intros aw0 (HP & H1).
  set (G' := torus_step ls stc ds G).
  eapply ht_bind.
  { eapply ht_conseq with (P' := fun aw => exists f', at_st sh f' aw /\ (forall x, filled G f' x all) /\ done_at 1 G' f' []).
    + apply (ht_run F (fun l aw => exists f', at_st sh f' aw /\ (forall x, filled G f' x all) /\ done_at 1 G' f' l) (tiles gr)).
      intros l1 t l2 E. pose proof (in_middle _ _ _ _ E) as Ht. apply in_tiles in Ht. destruct Ht as (ws & Ht).
      apply ht_exists. intros f2. apply ht_pre. intros aw1 (HP1 & H3 & H4).
      eapply ht_conseq; [apply (advance_at_ok G f2 t ws l1 Ht H3 H4)|intros aw ->; exact HP1|auto].
    + intros aw ->. exists f1. split; [exact HP|]. split; [exact H1|]. intros ? ? ? [].
    + intros x aw H. exact H. }
  intros []. apply ht_exists. intros f2. apply ht_pre. intros aw1 (HP1 & _ & H4). apply done_all_at in H4.
  eapply ht_conseq with (P' := fun aw => exists f', at_st sh f' aw /\ holds_at 1 G' f' /\ done_at 0 G' f' []).
  - apply (ht_run F (fun l aw => exists f', at_st sh f' aw /\ holds_at 1 G' f' /\ done_at 0 G' f' l) (tiles gr)).
    intros l1 t l2 E. pose proof (in_middle _ _ _ _ E) as Ht. apply in_tiles in Ht. destruct Ht as (ws & Ht).
    apply ht_exists. intros f3. apply ht_pre. intros aw2 (HP2 & H5 & H6).
    eapply ht_conseq; [apply (accept_at_ok G' f3 t ws l1 Ht H5 H6)|intros aw ->; exact HP2|auto].
  - intros aw ->. exists f2. split; [exact HP1|]. split; [exact H4|]. intros ? ? ? [].
  - intros y0 aw (f3 & HP3 & _ & H7). exists f3. split; [exact HP3|]. now apply done_all_at.
Qed.

(** ** Making and filling *)

Lemma choices_tile ws : In ws (choices (map snd gr)) -> exists t, at_tile gr t ws.
Proof.
  clear. revert ws. induction gr as [|[g l] g' IH]; intros ws H.
  - destruct H as [<-|[]]. now exists [].
  - cbn [map choices snd] in H. apply in_flat_map in H. destruct H as (w & Hw & H). apply in_map_iff in H. destruct H as (ws' & <- & H).
    destruct (IH _ H) as (t & Ht). apply In_nth_error in Hw. destruct Hw as (x & Hx). exists (x :: t). now split.
Qed.

Definition cells ws : Z := fold_right Z.mul 1 (map (fun '(n, i, p) => n + i + p) (shape gr ws)).

Lemma vol_cells ws : length ws = length gr -> vol (slot_box (shape gr ws) (map (fun _ => center) gr)) = cells ws.
Proof.
  unfold cells. clear. revert ws. induction gr as [|d g' IH]; intros [|w ws] H; try discriminate H; [reflexivity|].
  cbn [shape map combine slot_box fold_right]. unfold slot_box. cbn [combine map]. rewrite vol_cons. fold (slot_box (shape g' ws) (map (fun _ => center) g')).
  rewrite IH by now injection H. cbn [slots fst snd loc_val]. f_equal. ring.
Qed.

Lemma shape_facts t ws : at_tile gr t ws -> Forall shape_ok (shape gr ws) /\ bad_dim 0 (shape gr ws) = None /\ 0 < cells ws.
Proof.
  unfold cells. revert t ws Hf. clear. generalize 0 at 1 as d. revert gr. intros gr d. revert d. induction gr as [|[g l] g' IH]; intros d [|x t] [|w ws] Hf H; try contradiction H.
  - split; [constructor|]. split; [reflexivity|]. cbn. lia.
  - destruct H as [H1 H2]. destruct (fine_cons _ _ _ _ _ Hf H1) as (B1 & B2 & B3 & B4 & _). destruct (IH (d + 1) t ws B4 H2) as (I1 & I2 & I3).
    cbn [shape map fold_right bad_dim fst]. split; [constructor; [unfold shape_ok; lia|exact I1]|]. split.
    + destruct (Z.eqb_spec w 0); [lia|]. cbn [andb]. exact I2.
    + nia.
Qed.

Lemma no_fail n c : (forall u, (n <= u < n + c)%nat -> F u = false) -> first_fail F n c = None.
Proof.
  clear. revert n. induction c as [|c IH]; intros n H; [reflexivity|]. cbn [first_fail]. rewrite H by lia. rewrite IH; [reflexivity|]. intros u Hu. apply H. lia.
Qed.

Hypothesis Hvol : forall ws, In ws (choices (map snd gr)) -> 2 * cells ws < UINT_MOD.

Lemma make_torus_ok :
  (forall u, (u < length gr * count gr)%nat -> F u = false) ->
  ht F (fun aw : aworld V => aw = a_start) (make_torus chk gr) (fun _ => at_st sh (fun _ _ _ => None)).
Proof.
  intros HF. unfold make_torus. eapply ht_conseq.
  - apply (ht_run F (fun l => made (length gr * length l) (map (fun '(k, gs) => Some (k, ALive gs (blank_content (V := V))))
                                              (map (fun ws => (kind_of gr, shape gr ws)) l))) (choices (map snd gr))).
    intros l1 ws l2 E. pose proof (in_middle _ _ _ _ E) as Hin. destruct (choices_tile ws Hin) as (t & Ht).
    pose proof (proj2 (at_tile_len _ _ _ Ht)) as Lw. destruct (shape_facts t ws Ht) as (S1 & S2 & S3).
    pose proof (locs_of gr Hd) as HL.
    assert (HN : k_N (kind_of gr) = 2) by (destruct gr as [|? [|? [|? ?]]]; reflexivity).
    eapply ht_bind.
    + apply (ht_new F chk (length gr * length l1) _ (kind_of gr) (shape gr ws) (length gr)).
      * rewrite HN. lia.
      * split; [|split; [exact S1|]].
        { rewrite HL, map_length. now apply shape_len. }
        rewrite HN, HL, vol_cells by exact Lw. now apply Hvol.
      * exact S2.
      * rewrite HL, vol_cells by exact Lw. lia.
      * apply no_fail. intros u Hu. apply HF. rewrite HL, map_length in Hu. rewrite <- length_widths, E, app_length. cbn [length]. nia.
      * now rewrite HL, map_length.
    + intros y. cbn beta. clear y. apply ht_ret. intros aw HP. rewrite app_length, !map_app. cbn [length].
      replace (length gr * (length l1 + 1))%nat with (length gr * length l1 + length gr)%nat by nia. exact HP.
  - intros aw ->. cbn [length]. rewrite Nat.mul_0_r. split; reflexivity.
  - intros y0 aw HP. exact (made_at _ shl aw HP).
Qed.

Lemma fill_torus_ok ini f :
  ht F (at_st sh f) (fill_torus chk gr ini) (fun _ aw => exists f', at_st sh f' aw /\ holds_at 0 ini f').
Proof.
  unfold fill_torus. eapply ht_conseq with (P' := fun aw => exists f', at_st sh f' aw /\ done_at 0 ini f' []).
  - apply (ht_run F (fun l aw => exists f', at_st sh f' aw /\ done_at 0 ini f' l) (tiles gr)).
    intros l1 t l2 E. pose proof (in_middle _ _ _ _ E) as Ht. apply in_tiles in Ht. destruct Ht as (ws & Ht).
    apply ht_exists. intros f1. apply ht_pre. intros aw1 (HP1 & H1).
    eapply ht_conseq.
    + apply (ht_inner F chk sh f1 [(tile gr t, 0, fun s => ini (point_of gr t s))] (tile gr t) gr ws t); [exact Hf|exact Hd|exact Ht|apply sht_at, Ht|].
      intros q f' Hq Hag.
      apply (ht_set1 F chk sh f' (ut gr t 0 q)); [apply (ut_ok t ws); [exact Ht|lia|now apply (inner_all gr Hf t)]|apply slot_C|].
      now rewrite origin_point.
    + intros aw ->. exact HP1.
    + intros y0 aw HP. eexists. split; [exact HP|]. now apply done_over_at.
  - intros aw HP. exists f. split; [exact HP|]. intros ? ? ? [].
  - intros y0 aw (f' & HP & H). exists f'. split; [exact HP|]. now apply done_all_at.
Qed.

Lemma torus_ok ini k :
  (forall u, (u < length gr * count gr)%nat -> F u = false) ->
  ht F (fun aw => aw = a_start) (torus chk gr ini stc ds k)
    (fun _ aw => exists f, at_st sh f aw /\ holds_at 0 (torus_field ls stc ds ini k) f).
Proof.
  intros HF. unfold torus. eapply ht_bind; [apply (make_torus_ok HF)|]. intros []. eapply ht_bind; [apply (fill_torus_ok ini)|]. intros [].
  apply (ht_passes F (fun j aw => exists f, at_st sh f aw /\ holds_at 0 (torus_field ls stc ds ini j) f) k) with (j := O).
  intros j. apply ht_exists. intros f. apply ht_pre. intros aw0 [HP HH].
  eapply ht_conseq; [apply (torus_pass_ok _ f HH)|intros aw ->; exact HP|]. auto.
Qed.

Lemma torus_final ini k :
  (forall u, (u < length gr * count gr)%nat -> F u = false) ->
  exists h w aw, torus chk gr ini stc ds k (start F) = Ret w tt /\ after F h w aw /\ intact aw /\
    forall t ws q, at_tile gr t ws -> inside ws q ->
      cell w (Elt (array_no gr t) 0 q (map (fun _ => FC) q)) (Some (torus_field ls stc ds ini k (point_of gr t q))).
Proof.
  intros HF. destruct (torus_ok ini k HF [] (start F) a_start (after_start F) eq_refl) as (h & w & aw & [] & E & [HA _] & f & HP & HH).
  exists h, w, aw. split; [exact E|]. split; [exact HA|]. split; [exact (proj1 HP)|]. intros t ws q Ht Hq.
  apply (inside_box gr) in Hq; [|apply (at_tile_len _ _ _ Ht)].
  rewrite <- (HH t ws q Ht Hq), array_no_tile, <- look_ut. eapply at_st_cell; [exact HA|exact HP|].
  apply (ut_ok t ws); [exact Ht|lia|]. now apply (inner_all gr Hf t).
Qed.

End Torus.

Lemma cells_points gr : forall ws, length ws = length gr -> cells gr ws = points gr ws.
Proof.
  unfold cells. induction gr as [|[g l] gr IH]; intros [|w ws] H; try discriminate H; [reflexivity|].
  cbn [shape map fold_right points fst]. rewrite IH by now injection H. f_equal. ring.
Qed.

Lemma cells_bound gr : (forall t ws, at_tile gr t ws -> 2 * points gr ws < UINT_MOD) ->
  forall ws, In ws (choices (map snd gr)) -> 2 * cells gr ws < UINT_MOD.
Proof.
  intros H ws Hin. destruct (choices_tile gr ws Hin) as (t & Ht). rewrite cells_points by apply (at_tile_len _ _ _ Ht). exact (H t ws Ht).
Qed.

(** Every point lies in one of the parts of its direction. *)
Lemma first_cover l : Forall (fun w => 0 <= w) l -> forall p, 0 <= p < total l ->
  exists x w i, nth_error l x = Some w /\ 0 <= i < w /\ first_point l x + i = p.
Proof.
  unfold first_point, total. induction 1 as [|w l H0 _ IH]; intros p Hp; [cbn in Hp; lia|]. cbn [fold_right] in Hp.
  destruct (Z_lt_ge_dec p w) as [L|L].
  - exists O, w, p. split; [reflexivity|]. split; [lia|]. cbn. lia.
  - destruct (IH (p - w)) as (x & w' & i & E & Hi & Hx); [lia|]. exists (S x), w', i. split; [exact E|]. split; [exact Hi|].
    cbn [firstn fold_right]. lia.
Qed.

Lemma torus_cover gr : forall p, Forall (fun d => Forall (fun w => 0 <= w) (snd d)) gr -> inside (extents gr) p ->
  exists t ws q, at_tile gr t ws /\ inside ws q /\ point_of gr t q = p.
Proof.
  induction gr as [|[g l] gr IH]; intros p Hg Hp.
  - inversion Hp; subst. exists [], [], []. split; [exact I|]. split; [constructor|reflexivity].
  - inversion Hp as [|? x ? p' Hx Hp']; subst. inversion Hg as [|? ? H1 H2]; subst. cbn [snd] in *.
    destruct (first_cover l H1 x Hx) as (n & w & i & E & Hi & Ex). destruct (IH p' H2 Hp') as (t & ws & q & Ht & Hq & Eq).
    exists (n :: t), (w :: ws), (i :: q). split; [split; assumption|]. split; [now constructor|]. cbn [point_of]. now rewrite Ex, Eq.
Qed.
