(** The grid of arrays: numbers, shapes and neighbours. *)

From Coq Require Import ZArith List Bool Lia.
From Verif Require Import Base M_Flags M_Loop M_RS1 M_RS2 M_RS3 M_Heap M_PD1 M_PD2 M_PD3 M_World M_Client M_Examples M_Ring M_Torus
  Spec Spec_Loop Spec_Array Spec_Hist Spec_Reach Spec_Mode Spec_Client Spec_Ring Spec_Torus
  L_Base L_RS L_Range L_Loop L_Heap L_Lin L_Rep L_PD1 L_PD2 L_PD3 L_Kind L_Copy L_World L_Sim L_Access L_Copies L_Client L_Examples L_Link L_Ring.
Import ListNotations.
Open Scope Z_scope.

Implicit Types (gr : list direction) (t : list nat) (ws q : list Z).

(** ** Numbers *)

Lemma nth_choices {A} (C : list (list A)) l : forall x v y c, nth_error l x = Some v -> nth_error C y = Some c ->
  nth_error (flat_map (fun x => map (cons x) C) l) (x * length C + y) = Some (v :: c).
Proof.
  induction l as [|v0 l IH]; intros x v y c Hx Hy; [destruct x; discriminate Hx|]. cbn [flat_map].
  assert (Hl : (y < length C)%nat) by (apply nth_error_Some; now rewrite Hy).
  destruct x as [|x].
  - injection Hx as ->. cbn [Nat.mul Nat.add]. rewrite nth_error_app1 by now rewrite map_length. now rewrite nth_error_map, Hy.
  - cbn [nth_error] in Hx. rewrite nth_error_app2 by (rewrite map_length; lia). rewrite map_length.
    replace (S x * length C + y - length C)%nat with (x * length C + y)%nat by lia. now apply IH.
Qed.

Lemma length_choices {A} (C : list (list A)) l : length (flat_map (fun x => map (cons x) C) l) = (length l * length C)%nat.
Proof. induction l as [|v l IH]; [reflexivity|]. cbn [flat_map length]. rewrite app_length, map_length, IH. lia. Qed.

Lemma length_widths gr : length (choices (map snd gr)) = count gr.
Proof. induction gr as [|d gr IH]; [reflexivity|]. cbn [map choices]. rewrite length_choices, IH. reflexivity. Qed.
Lemma length_tiles gr : length (tiles gr) = count gr.
Proof. unfold tiles. induction gr as [|d gr IH]; [reflexivity|]. cbn [map choices]. rewrite length_choices, seq_length, IH. reflexivity. Qed.

Lemma widths_at gr : forall t ws, at_tile gr t ws -> nth_error (choices (map snd gr)) (tile gr t) = Some ws.
Proof.
  induction gr as [|[g l] gr IH]; intros [|x t] [|w ws] H; try contradiction H; [reflexivity|]. destruct H as [H1 H2].
  cbn [map choices tile snd]. rewrite <- length_widths. apply nth_choices; [exact H1|]. now apply IH.
Qed.

Lemma nth_seq0 n x : (x < n)%nat -> nth_error (seq 0 n) x = Some x.
Proof. intros H. rewrite (nth_error_nth' _ O) by now rewrite seq_length. now rewrite seq_nth. Qed.

Lemma tiles_at gr : forall t ws, at_tile gr t ws -> nth_error (tiles gr) (tile gr t) = Some t.
Proof.
  induction gr as [|[g l] gr IH]; intros [|x t] [|w ws] H; try contradiction H; [reflexivity|]. destruct H as [H1 H2].
  unfold tiles. cbn [map choices tile snd]. fold (tiles gr). rewrite <- length_tiles. apply nth_choices; [|now apply IH with (ws := ws)].
  apply nth_seq0, nth_error_Some. now rewrite H1.
Qed.

Lemma tile_inj gr t t' ws ws' : at_tile gr t ws -> at_tile gr t' ws' -> tile gr t = tile gr t' -> t = t'.
Proof. intros H H' E. apply tiles_at in H, H'. rewrite E in H. rewrite H in H'. now injection H'. Qed.

Lemma at_tile_fun gr t ws ws' : at_tile gr t ws -> at_tile gr t ws' -> ws = ws'.
Proof. intros H H'. apply widths_at in H, H'. rewrite H in H'. now injection H'. Qed.

Lemma in_tiles gr : forall t, In t (tiles gr) <-> exists ws, at_tile gr t ws.
Proof.
  induction gr as [|[g l] gr IH]; intros t.
  - cbn. split; [intros [<-|[]]; now exists []|]. intros ([|w ws] & H); destruct t; try contradiction H. now left.
  - unfold tiles. cbn [map choices snd]. fold (tiles gr). rewrite in_flat_map. split.
    + intros (x & Hx & Ht). apply in_map_iff in Ht. destruct Ht as (t' & <- & Ht). apply IH in Ht. destruct Ht as (ws & Hw).
      apply in_seq in Hx. destruct (nth_error l x) as [w|] eqn:E; [|apply nth_error_None in E; lia]. exists (w :: ws). now split.
    + intros ([|w ws] & H); destruct t as [|x t]; try contradiction H. destruct H as [H1 H2]. exists x. split.
      * apply in_seq. split; [lia|]. apply nth_error_Some. now rewrite H1.
      * apply in_map. apply IH. now exists ws.
Qed.

Lemma array_no_tile gr t : array_no gr t = tile gr t.
Proof. reflexivity. Qed.

Lemma origin_point gr : forall t q, vplus (origin gr t) q = point_of gr t q.
Proof.
  induction gr as [|[g l] gr IH]; intros [|x t] [|i q]; try reflexivity. cbn [origin vplus point_of snd]. now rewrite IH.
Qed.

(** ** Points *)

Fixpoint wrap (ls p : list Z) : list Z :=
  match ls, p with
  | n :: ls', x :: p' => x mod n :: wrap ls' p'
  | _, _ => []
  end.

Lemma round_wrap ls : forall p d, round ls p d = wrap ls (vplus p d).
Proof. induction ls as [|n ls IH]; intros [|x p] [|y d]; try reflexivity. cbn [round vplus wrap]. now rewrite IH. Qed.

(** The directions are usable. *)
Definition fine gr : Prop :=
  Forall (fun d => 1 <= fst d /\ Forall (fun w => fst d <= w /\ w + 2 * fst d <= 1073741824) (snd d)) gr.

Lemma fine_cons g l gr x w : fine ((g, l) :: gr) -> nth_error l x = Some w ->
  1 <= g /\ g <= w /\ w + 2 * g <= 1073741824 /\ fine gr /\ 0 <= first_point l x /\ first_point l x + w <= total l.
Proof.
  intros H E. inversion H as [|? ? [H1 H2] H3]; subst. cbn [fst snd] in *.
  pose proof (first_range g l H1 H2 x w E) as H4. rewrite Forall_forall in H2. specialize (H2 w (nth_error_In _ _ E)). tauto.
Qed.

Lemma wrap_inside gr : fine gr -> forall t ws q, at_tile gr t ws -> in_box (regions (shape gr ws) (inner gr)) q ->
  wrap (extents gr) (point_of gr t q) = point_of gr t q.
Proof.
  intros Hf t. revert gr Hf. induction t as [|x t IH]; intros gr Hf ws q Ht Hq.
  - destruct gr as [|[g l] gr], ws; try contradiction Ht. reflexivity.
  - destruct gr as [|[g l] gr], ws as [|w ws]; try contradiction Ht. destruct Ht as [H1 H2].
    destruct (fine_cons _ _ _ _ _ Hf H1) as (B1 & B2 & B3 & B4 & B5 & B6).
    unfold regions in Hq. cbn [shape inner map combine fst snd region] in Hq. apply in_box_cons in Hq.
    destruct Hq as (i & q' & -> & Hi & Hq). cbn [fst snd] in Hi. cbn [extents map snd point_of wrap]. fold (extents gr).
    rewrite (IH gr B4 ws q' H2 Hq). f_equal. apply Z.mod_small. lia.
Qed.

(** ** Regions *)

Lemma regions_cons d gr w ws u us : regions (shape (d :: gr) (w :: ws)) (u :: us) = region (fst d, w, fst d) u :: regions (shape gr ws) us.
Proof. reflexivity. Qed.

Lemma tags_split gr : fine gr -> forall e t ws q, at_tile gr t ws -> (e < length gr)%nat -> in_box (regions (shape gr ws) (tags gr e RALL)) q ->
  in_box (regions (shape gr ws) (tags gr e RN)) q \/ in_box (regions (shape gr ws) (tags gr e RIN)) q \/ in_box (regions (shape gr ws) (tags gr e RP)) q.
Proof.
  intros Hf. induction gr as [|[g l] gr IH]; intros e [|x t] [|w ws] q Ht He Hq; try contradiction Ht; [cbn in He; lia|].
  destruct Ht as [H1 H2]. destruct (fine_cons _ _ _ _ _ Hf H1) as (B1 & B2 & B3 & B4 & B5 & B6).
  destruct e as [|e]; cbn [tags] in *; rewrite !regions_cons in *; cbn [region fst] in *;
    apply in_box_cons in Hq; destruct Hq as (i & q' & -> & Hi & Hq); cbn [fst snd] in Hi.
  - destruct (Z.lt_ge_cases i 0); [left|right; destruct (Z.lt_ge_cases i w); [left|right]];
      apply in_box_cons; exists i, q'; cbn [fst snd]; (split; [reflexivity|]); (split; [lia|exact Hq]).
  - cbn [length] in He. destruct (IH B4 e t ws q' H2 ltac:(lia) Hq) as [H|[H|H]]; [left|right; left|right; right];
      apply in_box_cons; exists i, q'; cbn [fst snd]; (split; [reflexivity|]); (split; [lia|exact H]).
Qed.

Lemma tags_apart gr : forall e ws q u v, (e < length gr)%nat -> length ws = length gr ->
  Forall (fun w => 0 <= w) ws -> fine gr ->
  in_box (regions (shape gr ws) (tags gr e u)) q -> in_box (regions (shape gr ws) (tags gr e v)) q -> u <> RALL -> v <> RALL -> u = v.
Proof.
  induction gr as [|[g l] gr IH]; intros e [|w ws] q u v He Hl Hw Hf Hu Hv Nu Nv; try discriminate Hl; [cbn in He; lia|].
  inversion Hf as [|? ? [G1 _] Hf']; subst. inversion Hw; subst. cbn [fst] in G1.
  destruct e as [|e]; cbn [tags] in *; rewrite !regions_cons in *; cbn [fst] in *;
    apply in_box_cons in Hu; destruct Hu as (i & q' & -> & Hi & Hu);
    apply in_box_cons in Hv; destruct Hv as (i' & q'' & E & Hi' & Hv); injection E as <- <-.
  - destruct u, v; cbn [region fst snd] in *; try congruence; lia.
  - cbn [length] in *. apply (IH e ws q' u v); try assumption; lia.
Qed.

Lemma tags_0 gr : gr <> [] -> tags gr 0 RIN = inner gr.
Proof. destruct gr; [congruence|reflexivity]. Qed.
Lemma tags_next gr : forall e, (S e < length gr)%nat -> tags gr (S e) RIN = tags gr e RALL.
Proof.
  induction gr as [|d gr IH]; intros e He; [reflexivity|]. destruct e as [|e]; cbn [length] in He.
  - destruct gr as [|d' gr]; [cbn in He; lia|]. reflexivity.
  - cbn [tags]. f_equal. apply IH. lia.
Qed.
Lemma tags_last gr : forall e, (S e = length gr)%nat -> tags gr e RALL = map (fun _ => RALL) gr.
Proof.
  induction gr as [|d gr IH]; intros e He; [discriminate He|]. destruct e as [|e]; cbn [length] in He.
  - destruct gr as [|d' gr]; [reflexivity|cbn in He; lia].
  - cbn [tags map]. f_equal. apply IH. lia.
Qed.

(** ** Neighbours *)

Lemma at_tile_len gr : forall t ws, at_tile gr t ws -> length t = length gr /\ length ws = length gr.
Proof.
  induction gr as [|[g l] gr IH]; intros [|x t] [|w ws] H; try contradiction H; [auto|]. destruct H as [_ H]. cbn [length].
  destruct (IH _ _ H) as [-> ->]. auto.
Qed.

Definition zeros gr : list Z := map (fun _ => 0) gr.

Lemma links_same gr : fine gr -> forall fl t ws, at_tile gr t ws ->
  links (shape gr ws) (shape gr ws) (inner gr) (inner gr) (flags gr fl) (regions (shape gr ws) (inner gr)) (zeros gr).
Proof.
  intros Hf fl. induction gr as [|[g l] gr IH]; intros [|x t] [|w ws] H; try contradiction H; [apply links_nil|]. destruct H as [H1 H2].
  destruct (fine_cons _ _ _ _ _ Hf H1) as (B1 & B2 & B3 & B4 & B5 & B6).
  unfold inner, flags, zeros. cbn [map]. rewrite regions_cons. cbn [shape fst region]. apply links_cons; [apply link_I; lia|].
  exact (IH B4 t ws H2).
Qed.

Lemma vsub_zeros gr : forall q, length q = length gr -> vsub q (zeros gr) = q.
Proof.
  unfold vsub, zeros. induction gr as [|d gr IH]; intros [|x q] H; try discriminate H; [reflexivity|]. cbn. f_equal; [lia|]. apply IH. now injection H.
Qed.

Lemma in_regions_len gr : forall ws us q, length us = length gr -> length ws = length gr -> in_box (regions (shape gr ws) us) q -> length q = length gr.
Proof.
  induction gr as [|d gr IH]; intros [|w ws] [|u us] q H1 H2 Hq; try discriminate H1; try discriminate H2.
  - apply in_box_nil in Hq. now subst q.
  - rewrite regions_cons in Hq. apply in_box_cons in Hq. destruct Hq as (i & q' & -> & _ & Hq). cbn [length]. f_equal.
    apply (IH ws us q'); [now injection H1|now injection H2|exact Hq].
Qed.

Lemma tags_len gr : forall e u, length (tags gr e u) = length gr.
Proof. induction gr as [|d gr IH]; intros [|e] u; try reflexivity; cbn [tags length]; [now rewrite map_length|now rewrite IH]. Qed.

Lemma mod_off a b n : a = b \/ a = b - n \/ a = b + n -> a mod n = b mod n.
Proof.
  intros H. destruct (Z.eq_dec n 0) as [->|Hn]; [f_equal; lia|]. destruct H as [->|[->| ->]]; [reflexivity| |].
  - replace (b - n) with (b + (-1) * n) by ring. now apply Z.mod_add.
  - replace (b + n) with (b + 1 * n) by ring. now apply Z.mod_add.
Qed.

(** Along a direction: the array to the right, the two copies, and that they carry the right points. *)
Lemma neighbour gr : fine gr -> forall e t ws, at_tile gr t ws -> (e < length gr)%nat ->
  exists ws' S S', at_tile gr (next gr e t) ws' /\
    links (shape gr ws) (shape gr ws') (tags gr e RP) (tags gr e RIN) (flags gr BN) (regions (shape gr ws) (tags gr e RP)) S /\
    links (shape gr ws') (shape gr ws) (tags gr e RN) (tags gr e RIN) (flags gr BP) (regions (shape gr ws') (tags gr e RN)) S' /\
    (forall q, in_box (regions (shape gr ws) (tags gr e RP)) q ->
       in_box (regions (shape gr ws') (tags gr e RIN)) (vsub q S) /\
       wrap (extents gr) (point_of gr (next gr e t) (vsub q S)) = wrap (extents gr) (point_of gr t q)) /\
    (forall q, in_box (regions (shape gr ws') (tags gr e RN)) q ->
       in_box (regions (shape gr ws) (tags gr e RIN)) (vsub q S') /\
       wrap (extents gr) (point_of gr t (vsub q S')) = wrap (extents gr) (point_of gr (next gr e t) q)).
Proof.
  intros Hf. induction gr as [|[g l] gr IH]; intros e [|x t] [|w ws] Ht He; try contradiction Ht; [cbn in He; lia|].
  destruct Ht as [H1 H2]. destruct (fine_cons _ _ _ _ _ Hf H1) as (B1 & B2 & B3 & B4 & B5 & B6).
  destruct e as [|e]; cbn [tags next snd].
  - destruct (right_ok l x w H1) as (w' & E' & Ho). destruct (fine_cons _ _ _ _ _ Hf E') as (_ & C2 & C3 & _ & C5 & C6).
    exists (w' :: ws), (w :: zeros gr), (- w :: zeros gr). split; [split; assumption|].
    unfold flags. cbn [map]. rewrite !regions_cons. cbn [shape fst region].
    assert (Hl : length ws = length gr) by apply (at_tile_len _ _ _ H2).
    split; [apply links_cons; [apply link_P; lia|exact (links_same gr B4 BN t ws H2)]|].
    split; [apply links_cons; [apply link_N; lia|exact (links_same gr B4 BP t ws H2)]|].
    split; intros q Hq; apply in_box_cons in Hq; destruct Hq as (i & q' & -> & Hi & Hq); cbn [fst snd] in Hi;
      change (vsub (i :: q') (?a :: zeros gr)) with (i - a :: vsub q' (zeros gr));
      pose proof (in_regions_len gr ws (inner gr) q' (map_length _ _) Hl Hq) as Lq.
    + change (vsub (i :: q') (w :: zeros gr)) with (i - w :: vsub q' (zeros gr)). rewrite vsub_zeros by exact Lq. split.
      * apply in_box_cons. exists (i - w), q'. split; [reflexivity|]. split; [cbn [fst snd]; lia|exact Hq].
      * cbn [point_of extents map snd wrap]. f_equal. apply mod_off. lia.
    + change (vsub (i :: q') (- w :: zeros gr)) with (i - - w :: vsub q' (zeros gr)). rewrite vsub_zeros by exact Lq. split.
      * apply in_box_cons. exists (i - - w), q'. split; [reflexivity|]. split; [cbn [fst snd]; lia|exact Hq].
      * cbn [point_of extents map snd wrap]. f_equal. apply mod_off. lia.
  - cbn [length] in He. destruct (IH B4 e t ws H2 ltac:(lia)) as (ws' & S & S' & I1 & I2 & I3 & I4 & I5).
    exists (w :: ws'), (0 :: S), (0 :: S'). split; [split; assumption|].
    unfold flags. cbn [map]. rewrite !regions_cons. cbn [shape fst region].
    split; [apply links_cons; [apply link_A; lia|exact I2]|].
    split; [apply links_cons; [apply link_A; lia|exact I3]|].
    split; intros q Hq; apply in_box_cons in Hq; destruct Hq as (i & q' & -> & Hi & Hq); cbn [fst snd] in Hi.
    + change (vsub (i :: q') (0 :: S)) with (i - 0 :: vsub q' S). rewrite Z.sub_0_r. destruct (I4 q' Hq) as [J1 J2]. split.
      * apply in_box_cons. exists i, (vsub q' S). split; [reflexivity|]. split; [exact Hi|exact J1].
      * cbn [point_of extents map snd wrap]. f_equal. exact J2.
    + change (vsub (i :: q') (0 :: S')) with (i - 0 :: vsub q' S'). rewrite Z.sub_0_r. destruct (I5 q' Hq) as [J1 J2]. split.
      * apply in_box_cons. exists i, (vsub q' S'). split; [reflexivity|]. split; [exact Hi|exact J1].
      * cbn [point_of extents map snd wrap]. f_equal. exact J2.
Qed.

Lemma next_onto gr : forall e t ws, at_tile gr t ws -> (e < length gr)%nat -> exists t' ws', at_tile gr t' ws' /\ next gr e t' = t.
Proof.
  induction gr as [|[g l] gr IH]; intros e [|x t] [|w ws] Ht He; try contradiction Ht; [cbn in He; lia|]. destruct Ht as [H1 H2].
  destruct e as [|e].
  - destruct (left_ok l x) as (y & Hy & E); [apply nth_error_Some; now rewrite H1|].
    destruct (nth_error l y) as [w'|] eqn:Ey; [|apply nth_error_None in Ey; lia].
    exists (y :: t), (w' :: ws). split; [split; assumption|]. cbn [next snd]. now rewrite E.
  - cbn [length] in He. destruct (IH e t ws H2 ltac:(lia)) as (t' & ws' & I1 & I2). exists (x :: t'), (w :: ws').
    split; [split; assumption|]. cbn [next]. now rewrite I2.
Qed.

(** ** Arrays *)

Lemma locs_of gr : (1 <= length gr <= 3)%nat -> k_locs (kind_of gr) = map (fun _ => center) gr.
Proof. intros H. destruct gr as [|? [|? [|? [|? ?]]]]; cbn [length] in H; try lia; reflexivity. Qed.

Lemma shape_len gr : forall ws, length ws = length gr -> length (shape gr ws) = length gr.
Proof. induction gr as [|d gr IH]; intros [|w ws] H; try discriminate H; [reflexivity|]. cbn [shape length]. f_equal. apply IH. now injection H. Qed.

Lemma shape_centers gr ws : length ws = length gr -> map (fun _ => center) gr = repeat center (length (shape gr ws)).
Proof. intros H. rewrite shape_len by exact H. clear. induction gr; cbn; congruence. Qed.

Lemma slot_C q : slot_of q (map (fun _ => FC) q) = q.
Proof. unfold slot_of. induction q as [|x q IH]; [reflexivity|]. cbn. f_equal; [lia|exact IH]. Qed.

Lemma all_dims gr : forall ws q, length ws = length gr -> in_box (regions (shape gr ws) (map (fun _ => RALL) gr)) q ->
  dims_ok (map (fun _ => center) gr) (shape gr ws) q (map (fun _ => FC) q).
Proof.
  induction gr as [|d gr IH]; intros [|w ws] q Hl Hq; try discriminate Hl.
  - apply in_box_nil in Hq. subst q. exact I.
  - cbn [map] in Hq. rewrite regions_cons in Hq. apply in_box_cons in Hq. destruct Hq as (i & q' & -> & Hi & Hq).
    cbn [region fst snd] in Hi. cbn [map shape dims_ok]. split; [cbn; lia|]. apply IH; [now injection Hl|exact Hq].
Qed.

Lemma inner_all gr : fine gr -> forall t ws q, at_tile gr t ws -> in_box (regions (shape gr ws) (inner gr)) q ->
  in_box (regions (shape gr ws) (map (fun _ => RALL) gr)) q.
Proof.
  intros Hf. induction gr as [|[g l] gr IH]; intros [|x t] [|w ws] q Ht Hq; try contradiction Ht; [exact Hq|]. destruct Ht as [H1 H2].
  destruct (fine_cons _ _ _ _ _ Hf H1) as (B1 & B2 & B3 & B4 & B5 & B6). unfold inner in Hq. cbn [map] in *. rewrite regions_cons in *.
  apply in_box_cons in Hq. destruct Hq as (i & q' & -> & Hi & Hq). cbn [region fst snd] in *. apply in_box_cons. exists i, q'.
  split; [reflexivity|]. cbn [fst snd]. split; [lia|]. now apply (IH B4 t ws q').
Qed.

(** The displacements within the ghost points. *)
Definition near gr (d : list Z) : Prop := Forall2 (fun e x => - fst e <= x <= fst e) gr d.

Lemma near_in gr : fine gr -> forall t ws q d, at_tile gr t ws -> in_box (regions (shape gr ws) (inner gr)) q -> near gr d ->
  in_box (regions (shape gr ws) (map (fun _ => RALL) gr)) (vplus q d) /\ shifted q d = Ok (vplus q d).
Proof.
  intros Hf. induction gr as [|[g l] gr IH]; intros [|x t] [|w ws] q d Ht Hq Hd; try contradiction Ht.
  - apply in_box_nil in Hq. subst q. inversion Hd; subst. split; [constructor|reflexivity].
  - destruct Ht as [H1 H2]. destruct (fine_cons _ _ _ _ _ Hf H1) as (B1 & B2 & B3 & B4 & B5 & B6).
    unfold inner in Hq. cbn [map] in *. rewrite regions_cons in *. apply in_box_cons in Hq. destruct Hq as (i & q' & -> & Hi & Hq).
    inversion Hd as [|? y ? d' Hy Hd']; subst. cbn [region fst snd] in *. destruct (IH B4 t ws q' d' H2 Hq Hd') as [I1 I2].
    cbn [vplus shifted]. split.
    + apply in_box_cons. exists (i + y), (vplus q' d'). split; [reflexivity|]. cbn [fst snd]. split; [lia|exact I1].
    + unfold iadd. rewrite ck_ok by (unfold in_int; lia). cbn [rbind]. now rewrite I2.
Qed.

Lemma point_plus gr : forall t q d, length q = length d -> vplus (point_of gr t q) d = point_of gr t (vplus q d).
Proof.
  induction gr as [|[g l] gr IH]; intros [|x t] [|i q] [|y d] H; try discriminate H; try reflexivity.
  cbn [point_of vplus]. rewrite IH by now injection H. f_equal. ring.
Qed.

Lemma inside_box gr : forall ws q, length ws = length gr -> (inside ws q <-> in_box (regions (shape gr ws) (inner gr)) q).
Proof.
  unfold inside. induction gr as [|d gr IH]; intros [|w ws] q H; try discriminate H.
  - rewrite in_box_nil. split; [now inversion 1|intros ->; constructor].
  - unfold inner. cbn [map]. rewrite regions_cons, in_box_cons. cbn [region fst snd]. split.
    + inversion 1; subst. eexists _, _. split; [reflexivity|]. split; [assumption|]. apply IH; [now injection H|assumption].
    + intros (i & q' & -> & Hi & Hq). constructor; [exact Hi|]. apply IH; [now injection H|exact Hq].
Qed.
