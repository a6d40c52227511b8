(** Closed forms of the range and shape functions. *)

From Coq Require Import ZArith List Bool Lia.
From Verif Require Import Base M_Flags M_Loop M_RS1 M_RS2 M_RS3 Spec L_Base.
Import ListNotations.
Open Scope Z_scope.

(** ** One dimension *)

Lemma rbegin1_0 chk r : rbegin1 chk r 0 = Ok (r1_begin r).
Proof. destruct chk; reflexivity. Qed.
Lemma rsize1_0 chk r : rsize1 chk r 0 = Ok (r1_size r).
Proof. destruct chk; reflexivity. Qed.
Lemma rend1_0 chk r : rend1 chk r 0 = ck (r1_begin r + r1_size r).
Proof. destruct chk; reflexivity. Qed.
Lemma rlast1_0 chk r : rlast1 chk r 0 = (let* e := ck (r1_begin r + r1_size r) in ck (e - 1)).
Proof. destruct chk; reflexivity. Qed.
Lemma check_d1_0 chk : check_d1 chk 0 = Ok tt.
Proof. destruct chk; reflexivity. Qed.

Lemma sn1_0 chk s : sn1 chk s 0 = Ok (s1_n s).
Proof. destruct chk; reflexivity. Qed.

(** ** Two dimensions *)

Lemma rbegin2_0 chk r : rbegin2 chk r 0 = Ok (fst (r2_begin r)).
Proof. destruct chk; reflexivity. Qed.
Lemma rbegin2_1 chk r : rbegin2 chk r 1 = Ok (snd (r2_begin r)).
Proof. destruct chk; reflexivity. Qed.
Lemma rsize2_0 chk r : rsize2 chk r 0 = Ok (fst (r2_size r)).
Proof. destruct chk; reflexivity. Qed.
Lemma rsize2_1 chk r : rsize2 chk r 1 = Ok (snd (r2_size r)).
Proof. destruct chk; reflexivity. Qed.
Lemma rend2_0 chk r : rend2 chk r 0 = ck (fst (r2_begin r) + fst (r2_size r)).
Proof. destruct chk; reflexivity. Qed.
Lemma rend2_1 chk r : rend2 chk r 1 = ck (snd (r2_begin r) + snd (r2_size r)).
Proof. destruct chk; reflexivity. Qed.
Lemma rlast2_0 chk r :
  rlast2 chk r 0 = (let* e := ck (fst (r2_begin r) + fst (r2_size r)) in ck (e - 1)).
Proof. destruct chk; reflexivity. Qed.
Lemma rlast2_1 chk r :
  rlast2 chk r 1 = (let* e := ck (snd (r2_begin r) + snd (r2_size r)) in ck (e - 1)).
Proof. destruct chk; reflexivity. Qed.
Lemma sn2_0 chk s : sn2 chk s 0 = Ok (fst (s2_n s)).
Proof. destruct chk; reflexivity. Qed.
Lemma sn2_1 chk s : sn2 chk s 1 = Ok (snd (s2_n s)).
Proof. destruct chk; reflexivity. Qed.

(** ** Three dimensions *)

Lemma rbegin3_0 chk r : rbegin3 chk r 0 = Ok (c0 (r3_begin r)).
Proof. destruct chk; reflexivity. Qed.
Lemma rbegin3_1 chk r : rbegin3 chk r 1 = Ok (c1 (r3_begin r)).
Proof. destruct chk; reflexivity. Qed.
Lemma rbegin3_2 chk r : rbegin3 chk r 2 = Ok (c2 (r3_begin r)).
Proof. destruct chk; reflexivity. Qed.
Lemma rsize3_0 chk r : rsize3 chk r 0 = Ok (c0 (r3_size r)).
Proof. destruct chk; reflexivity. Qed.
Lemma rsize3_1 chk r : rsize3 chk r 1 = Ok (c1 (r3_size r)).
Proof. destruct chk; reflexivity. Qed.
Lemma rsize3_2 chk r : rsize3 chk r 2 = Ok (c2 (r3_size r)).
Proof. destruct chk; reflexivity. Qed.
Lemma rend3_0 chk r : rend3 chk r 0 = ck (c0 (r3_begin r) + c0 (r3_size r)).
Proof. destruct chk; reflexivity. Qed.
Lemma rend3_1 chk r : rend3 chk r 1 = ck (c1 (r3_begin r) + c1 (r3_size r)).
Proof. destruct chk; reflexivity. Qed.
Lemma rend3_2 chk r : rend3 chk r 2 = ck (c2 (r3_begin r) + c2 (r3_size r)).
Proof. destruct chk; reflexivity. Qed.
Lemma rlast3_0 chk r :
  rlast3 chk r 0 = (let* e := ck (c0 (r3_begin r) + c0 (r3_size r)) in ck (e - 1)).
Proof. destruct chk; reflexivity. Qed.
Lemma rlast3_1 chk r :
  rlast3 chk r 1 = (let* e := ck (c1 (r3_begin r) + c1 (r3_size r)) in ck (e - 1)).
Proof. destruct chk; reflexivity. Qed.
Lemma rlast3_2 chk r :
  rlast3 chk r 2 = (let* e := ck (c2 (r3_begin r) + c2 (r3_size r)) in ck (e - 1)).
Proof. destruct chk; reflexivity. Qed.
Lemma sn3_0 chk s : sn3 chk s 0 = Ok (c0 (s3_n s)).
Proof. destruct chk; reflexivity. Qed.
Lemma sn3_1 chk s : sn3 chk s 1 = Ok (c1 (s3_n s)).
Proof. destruct chk; reflexivity. Qed.
Lemma sn3_2 chk s : sn3 chk s 2 = Ok (c2 (s3_n s)).
Proof. destruct chk; reflexivity. Qed.

Global Hint Rewrite rbegin1_0 rsize1_0 rend1_0 rlast1_0 check_d1_0 sn1_0
  rbegin2_0 rbegin2_1 rsize2_0 rsize2_1 rend2_0 rend2_1 rlast2_0 rlast2_1 sn2_0 sn2_1
  rbegin3_0 rbegin3_1 rbegin3_2 rsize3_0 rsize3_1 rsize3_2 rend3_0 rend3_1 rend3_2
  rlast3_0 rlast3_1 rlast3_2 sn3_0 sn3_1 sn3_2 : rs.

Ltac rs := autorewrite with rs; cbn [rbind].

(** ** Overlap in closed form, per dimension *)

Definition meets (a b : Z * Z) : bool := negb ((fst a >=? snd b) || (snd a <=? fst b)).
Definition inter (a b : Z * Z) : Z * Z := (Z.max (fst a) (fst b), Z.min (snd a) (snd b)).

Lemma meets_spec a b : meets a b = true <-> fst a < snd b /\ fst b < snd a.
Proof.
  unfold meets. rewrite negb_true_iff, orb_false_iff, Z.geb_leb, Z.leb_gt, Z.leb_gt. lia.
Qed.

Lemma meets_ne a b :
  fst a < snd a -> fst b < snd b ->
  (meets a b = true <-> exists x, fst a <= x < snd a /\ fst b <= x < snd b).
Proof.
  intros Ha Hb. rewrite meets_spec. split.
  - intros H. exists (Z.max (fst a) (fst b)). lia.
  - intros [x H]. lia.
Qed.

Ltac split_fits :=
  repeat match goal with
  | H : box_fits _ |- _ => unfold box_fits, faces1, faces2, faces3 in H
  | H : Forall _ (_ :: _) |- _ => inversion_clear H
  | H : Forall _ [] |- _ => clear H
  | H : _ /\ _ |- _ => destruct H
  | H : in_int _ |- _ => unfold in_int in H
  end; cbn [fst snd] in *.

Lemma is_overlap1_eq chk a b :
  box_fits (faces1 a) -> box_fits (faces1 b) ->
  is_overlap1 chk a b =
  Ok (meets (r1_begin a, r1_begin a + r1_size a) (r1_begin b, r1_begin b + r1_size b)).
Proof.
  intros Ha Hb. split_fits.
  unfold is_overlap1, sc_or. rs. ckgo. unfold meets; cbn [fst snd].
  destruct (_ >=? _); cbn [rbind orb negb]; [reflexivity|]. ckgo.
  destruct (_ <=? _); reflexivity.
Qed.

Lemma is_overlap2_eq chk a b :
  box_fits (faces2 a) -> box_fits (faces2 b) ->
  is_overlap2 chk a b =
  Ok (meets (nth 0 (faces2 a) (0, 0)) (nth 0 (faces2 b) (0, 0)) &&
      meets (nth 1 (faces2 a) (0, 0)) (nth 1 (faces2 b) (0, 0))).
Proof.
  intros Ha Hb. split_fits.
  unfold is_overlap2, sc_or. rs. ckgo. unfold meets, faces2; cbn [fst snd nth].
  do 4 (match goal with |- context [if ?c then _ else _] => destruct c end;
        cbn [rbind orb negb andb]; [try reflexivity|]; ckgo);
  reflexivity.
Qed.

Lemma is_overlap3_eq chk a b :
  box_fits (faces3 a) -> box_fits (faces3 b) ->
  is_overlap3 chk a b =
  Ok (meets (nth 0 (faces3 a) (0, 0)) (nth 0 (faces3 b) (0, 0)) &&
      (meets (nth 1 (faces3 a) (0, 0)) (nth 1 (faces3 b) (0, 0)) &&
       meets (nth 2 (faces3 a) (0, 0)) (nth 2 (faces3 b) (0, 0)))).
Proof.
  intros Ha Hb. split_fits.
  unfold is_overlap3, sc_or. rs. ckgo. unfold meets, faces3; cbn [fst snd nth].
  do 6 (match goal with |- context [if ?c then _ else _] => destruct c end;
        cbn [rbind orb negb andb]; [try reflexivity|]; ckgo);
  reflexivity.
Qed.

Lemma zmax_if x y : (if x >? y then x else y) = Z.max x y.
Proof. destruct (x >? y) eqn:E; zcmp; lia. Qed.
Lemma zmin_if x y : (if x <? y then x else y) = Z.min x y.
Proof. destruct (x <? y) eqn:E; zcmp; lia. Qed.

Lemma if_ok_max (x y : Z) : (if x >? y then Ok x else Ok y) = Ok (Z.max x y).
Proof. rewrite <- zmax_if. now destruct (x >? y). Qed.
Lemma if_ok_min (x y : Z) : (if x <? y then Ok x else Ok y) = Ok (Z.min x y).
Proof. rewrite <- zmin_if. now destruct (x <? y). Qed.

Lemma overlap1_eq chk a b :
  box_fits (faces1 a) -> box_fits (faces1 b) ->
  let lo := Z.max (r1_begin a) (r1_begin b) in
  let hi := Z.min (r1_begin a + r1_size a) (r1_begin b + r1_size b) in
  in_int (hi - lo) ->
  overlap1 chk a b =
  (if chk && negb (meets (r1_begin a, r1_begin a + r1_size a) (r1_begin b, r1_begin b + r1_size b))
   then Err EOverlapNotFound else Ok (mkRange1 lo (hi - lo))).
Proof.
  intros Ha Hb lo hi Hi. unfold overlap1.
  rewrite is_overlap1_eq by assumption. split_fits.
  destruct chk; cbn [rbind andb].
  - destruct (meets _ _); cbn [rbind negb]; [|reflexivity].
    rs. ckgo. rewrite if_ok_max, if_ok_min; cbn [rbind].
    unfold isub. rewrite ck_ok by (unfold in_int, lo, hi in *; lia). cbn [rbind].
    unfold mk_rangeT1. rewrite u2i_i2u by (unfold in_int, lo, hi in *; lia). reflexivity.
  - rs. ckgo. rewrite if_ok_max, if_ok_min; cbn [rbind].
    unfold isub. rewrite ck_ok by (unfold in_int, lo, hi in *; lia). cbn [rbind].
    unfold mk_rangeT1. rewrite u2i_i2u by (unfold in_int, lo, hi in *; lia). reflexivity.
Qed.

Ltac ov_finish :=
  rs; ckgo; rewrite ?if_ok_max, ?if_ok_min; cbn [rbind]; unfold isub;
  repeat (rewrite ck_ok by (unfold in_int in *; lia); cbn [rbind]);
  unfold mk_rangeT2, mk_rangeT3; repeat rewrite u2i_i2u by (unfold in_int in *; lia).

Lemma overlap2_eq chk a b :
  box_fits (faces2 a) -> box_fits (faces2 b) ->
  let f0 := inter (nth 0 (faces2 a) (0, 0)) (nth 0 (faces2 b) (0, 0)) in
  let f1 := inter (nth 1 (faces2 a) (0, 0)) (nth 1 (faces2 b) (0, 0)) in
  in_int (snd f0 - fst f0) -> in_int (snd f1 - fst f1) ->
  overlap2 chk a b =
  (if chk && negb (meets (nth 0 (faces2 a) (0, 0)) (nth 0 (faces2 b) (0, 0)) &&
                   meets (nth 1 (faces2 a) (0, 0)) (nth 1 (faces2 b) (0, 0)))
   then Err EOverlapNotFound
   else Ok (mkRange2 (fst f0, fst f1) (snd f0 - fst f0, snd f1 - fst f1))).
Proof.
  intros Ha Hb f0 f1 H0 H1. unfold overlap2.
  rewrite is_overlap2_eq by assumption. split_fits.
  unfold f0, f1, inter, faces2 in *; cbn [fst snd nth] in *.
  destruct chk; cbn [rbind andb].
  - destruct (meets _ _ && meets _ _); cbn [rbind negb]; [|reflexivity].
    ov_finish. reflexivity.
  - ov_finish. reflexivity.
Qed.

Lemma overlap3_eq chk a b :
  box_fits (faces3 a) -> box_fits (faces3 b) ->
  let f0 := inter (nth 0 (faces3 a) (0, 0)) (nth 0 (faces3 b) (0, 0)) in
  let f1 := inter (nth 1 (faces3 a) (0, 0)) (nth 1 (faces3 b) (0, 0)) in
  let f2 := inter (nth 2 (faces3 a) (0, 0)) (nth 2 (faces3 b) (0, 0)) in
  in_int (snd f0 - fst f0) -> in_int (snd f1 - fst f1) -> in_int (snd f2 - fst f2) ->
  overlap3 chk a b =
  (if chk && negb (meets (nth 0 (faces3 a) (0, 0)) (nth 0 (faces3 b) (0, 0)) &&
                   (meets (nth 1 (faces3 a) (0, 0)) (nth 1 (faces3 b) (0, 0)) &&
                    meets (nth 2 (faces3 a) (0, 0)) (nth 2 (faces3 b) (0, 0))))
   then Err EOverlapNotFound
   else Ok (mkRange3 (mkI3 (fst f0) (fst f1) (fst f2))
                     (mkI3 (snd f0 - fst f0) (snd f1 - fst f1) (snd f2 - fst f2)))).
Proof.
  intros Ha Hb f0 f1 f2 H0 H1 H2. unfold overlap3.
  rewrite is_overlap3_eq by assumption. split_fits.
  unfold f0, f1, f2, inter, faces3 in *; cbn [fst snd nth] in *.
  destruct chk; cbn [rbind andb].
  - destruct (meets _ _ && (meets _ _ && meets _ _)); cbn [rbind negb]; [|reflexivity].
    ov_finish. reflexivity.
  - ov_finish. reflexivity.
Qed.

(** The extent of the intersection fits when the boxes meet. *)
Lemma inter_fits a b :
  in_int (snd a - fst a) -> in_int (snd b - fst b) -> meets a b = true ->
  in_int (snd (inter a b) - fst (inter a b)).
Proof.
  intros Ha Hb Hm. apply meets_spec in Hm. unfold in_int, inter in *. cbn [fst snd]. lia.
Qed.

(** ** Shape functions, per dimension *)

Definition dfits (n i p : Z) : Prop := dim_fits (n, i, p).

Lemma mk_sizeT1_fits n i p : dim_fits (n, i, p) -> mk_sizeT1 n i p = mkSize1 i n p.
Proof. unfold dim_fits. intros H. unfold mk_sizeT1. now rewrite !u2i_small by lia. Qed.

Lemma mk_sizeT2_fits n0 i0 p0 n1 i1 p1 :
  dim_fits (n0, i0, p0) -> dim_fits (n1, i1, p1) ->
  mk_sizeT2 n0 i0 p0 n1 i1 p1 = mkSize2 (i0, i1) (n0, n1) (p0, p1).
Proof. unfold dim_fits. intros H0 H1. unfold mk_sizeT2. now rewrite !u2i_small by lia. Qed.

Lemma mk_sizeT3_fits n0 i0 p0 n1 i1 p1 n2 i2 p2 :
  dim_fits (n0, i0, p0) -> dim_fits (n1, i1, p1) -> dim_fits (n2, i2, p2) ->
  mk_sizeT3 n0 i0 p0 n1 i1 p1 n2 i2 p2 =
  mkSize3 (mkI3 i0 i1 i2) (mkI3 n0 n1 n2) (mkI3 p0 p1 p2).
Proof. unfold dim_fits. intros H0 H1 H2. unfold mk_sizeT3. now rewrite !u2i_small by lia. Qed.

(** Everything [SizeT] says about one dimension of a shape that fits. *)
Definition dim_facts (g : dim_shape)
  (begin_ end_ size_ last_ : ra -> res Z) (bound_ : ra -> bflag -> res Z)
  (in_ n_ p_ : res Z) : Prop :=
  let '(n, i, p) := g in
  in_ = Ok i /\ n_ = Ok n /\ p_ = Ok p /\
  forall t,
    begin_ t = Ok (fst (region g t)) /\ end_ t = Ok (snd (region g t)) /\
    size_ t = Ok (snd (region g t) - fst (region g t)) /\
    last_ t = Ok (snd (region g t) - 1) /\
    forall fl, bound_ t fl = Ok (edge (region g t) fl).

Ltac dim_facts_tac :=
  match goal with H : dim_fits (?n, ?i, ?p) |- _ => unfold dim_fits in H end;
  split; [reflexivity|]; split; [reflexivity|]; split; [reflexivity|];
  intros t; cbn [region fst snd edge].

Lemma dim_facts1 chk n i p :
  dim_fits (n, i, p) ->
  let s := mkSize1 i n p in
  dim_facts (n, i, p) (sbegin1 chk s 0) (send1 chk s 0) (ssize1 chk s 0) (slast1 chk s 0)
            (sbound1 chk s 0) (sin1 chk s 0) (sn1 chk s 0) (sp1 chk s 0).
Proof.
  intros H s. unfold dim_facts, dim_fits in *.
  unfold sin1, sn1, sp1, sbound1, slast1, ssize1, sbegin1, send1.
  rewrite check_d1_0. cbn [rbind s s1_in s1_n s1_p].
  repeat (split; [reflexivity|]). intros t.
  destruct t; cbn [region fst snd edge]; unfold s, iadd, isub, ineg; cbn [s1_in s1_n s1_p rbind]; ckgo;
  rewrite ?i2u_small by (unfold in_uint; lia);
  (split; [f_equal; lia|]); (split; [f_equal; lia|]); (split; [f_equal; lia|]);
  (split; [f_equal; lia|]); intros fl; destruct fl; cbn [edge fst snd]; ckgo; f_equal; lia.
Qed.

Lemma check_d2_lt chk d : 0 <= d < 2 -> check_d2 chk d = Ok tt.
Proof. intros H. unfold check_d2. destruct chk; [|reflexivity]. destruct (2 <=? d) eqn:E; zcmp; [lia|reflexivity]. Qed.
Lemma check_d3_lt chk d : 0 <= d < 3 -> check_d3 chk d = Ok tt.
Proof. intros H. unfold check_d3. destruct chk; [|reflexivity]. destruct (3 <=? d) eqn:E; zcmp; [lia|reflexivity]. Qed.

Definition dimof2 (s : sizeT2) (d : Z) : dim_shape := nth (Z.to_nat d) (shape2 s) (0, 0, 0).
Definition dimof3 (s : sizeT3) (d : Z) : dim_shape := nth (Z.to_nat d) (shape3 s) (0, 0, 0).

Lemma dim_facts2 chk s d :
  0 <= d < 2 -> Forall dim_fits (shape2 s) ->
  dim_facts (dimof2 s d) (sbegin2 chk s d) (send2 chk s d) (ssize2 chk s d) (slast2 chk s d)
            (sbound2 chk s d) (sin2 chk s d) (sn2 chk s d) (sp2 chk s d).
Proof.
  intros Hd H. destruct s as [[i0 i1] [n0 n1] [p0 p1]].
  unfold shape2 in H; cbn [fst snd s2_in s2_n s2_p] in H.
  inversion_clear H as [|? ? H0 H']. inversion_clear H' as [|? ? H1 H''].
  unfold dim_fits in H0, H1.
  assert (E : d = 0 \/ d = 1) by lia.
  unfold sin2, sn2, sp2, sbound2, slast2, ssize2, sbegin2, send2.
  rewrite check_d2_lt by lia.
  destruct E as [-> | ->]; unfold dimof2, shape2; cbn [Z.to_nat Pos.to_nat Pos.iter_op Nat.add nth fst snd s2_in s2_n s2_p];
  unfold dim_facts, idx2;
  change (1 =? 0) with false; change (0 =? 0) with true; change (1 =? 1) with true;
  cbn [rbind fst snd s2_in s2_n s2_p];
  repeat (split; [reflexivity|]); intros t;
  destruct t; cbn [region fst snd edge rbind]; unfold iadd, isub, ineg; cbn [rbind]; ckgo;
  rewrite ?i2u_small by (unfold in_uint; lia);
  (split; [f_equal; lia|]); (split; [f_equal; lia|]); (split; [f_equal; lia|]);
  (split; [f_equal; lia|]); intros fl; destruct fl; cbn [edge fst snd]; ckgo; f_equal; lia.
Qed.

Lemma dim_facts3 chk s d :
  0 <= d < 3 -> Forall dim_fits (shape3 s) ->
  dim_facts (dimof3 s d) (sbegin3 chk s d) (send3 chk s d) (ssize3 chk s d) (slast3 chk s d)
            (sbound3 chk s d) (sin3 chk s d) (sn3 chk s d) (sp3 chk s d).
Proof.
  intros Hd H. destruct s as [[i0 i1 i2] [n0 n1 n2] [p0 p1 p2]].
  unfold shape3 in H; cbn [c0 c1 c2 s3_in s3_n s3_p] in H.
  inversion_clear H as [|? ? H0 H']. inversion_clear H' as [|? ? H1 H''].
  inversion_clear H'' as [|? ? H2 H'''].
  unfold dim_fits in H0, H1, H2.
  assert (E : d = 0 \/ d = 1 \/ d = 2) by lia.
  unfold sin3, sn3, sp3, sbound3, slast3, ssize3, sbegin3, send3.
  rewrite check_d3_lt by lia.
  destruct E as [-> | [-> | ->]]; unfold dimof3, shape3; cbn [Z.to_nat Pos.to_nat Pos.iter_op Nat.add nth c0 c1 c2 s3_in s3_n s3_p];
  unfold dim_facts, idx3;
  change (1 =? 0) with false; change (0 =? 0) with true; change (1 =? 1) with true;
  change (2 =? 0) with false; change (2 =? 1) with false; change (2 =? 2) with true;
  cbn [rbind c0 c1 c2 s3_in s3_n s3_p];
  repeat (split; [reflexivity|]); intros t;
  destruct t; cbn [region fst snd edge rbind]; unfold iadd, isub, ineg; cbn [rbind]; ckgo;
  rewrite ?i2u_small by (unfold in_uint; lia);
  (split; [f_equal; lia|]); (split; [f_equal; lia|]); (split; [f_equal; lia|]);
  (split; [f_equal; lia|]); intros fl; destruct fl; cbn [edge fst snd]; ckgo; f_equal; lia.
Qed.

Lemma region_size_fits g t : dim_fits g -> 0 <= snd (region g t) - fst (region g t) <= INT_MAX.
Proof. destruct g as [[n i] p]. unfold dim_fits. destruct t; cbn [region fst snd]; lia. Qed.

Lemma srange1_eq chk n i p t :
  dim_fits (n, i, p) ->
  srange1 chk (mkSize1 i n p) t =
  Ok (mkRange1 (fst (region (n, i, p) t)) (snd (region (n, i, p) t) - fst (region (n, i, p) t))).
Proof.
  intros H. destruct (dim_facts1 chk n i p H) as (_ & _ & _ & F).
  destruct (F t) as (F1 & F2 & F3 & _). unfold srange1. rewrite F1. cbn [rbind].
  rewrite F3. cbn [rbind]. unfold mk_rangeT1.
  pose proof (region_size_fits (n, i, p) t H). rewrite u2i_small by lia. reflexivity.
Qed.

Lemma srange2_eq chk s t0 t1 :
  Forall dim_fits (shape2 s) ->
  let f0 := region (dimof2 s 0) t0 in
  let f1 := region (dimof2 s 1) t1 in
  srange2 chk s t0 t1 = Ok (mkRange2 (fst f0, fst f1) (snd f0 - fst f0, snd f1 - fst f1)).
Proof.
  intros H f0 f1.
  pose proof (dim_facts2 chk s 0 ltac:(lia) H) as F0.
  pose proof (dim_facts2 chk s 1 ltac:(lia) H) as F1.
  assert (H0 : dim_fits (dimof2 s 0)) by (inversion_clear H; assumption).
  assert (H1 : dim_fits (dimof2 s 1)) by (inversion_clear H as [|? ? ? H']; inversion_clear H'; assumption).
  unfold dim_facts in F0, F1. subst f0 f1.
  destruct (dimof2 s 0) as [[n0 i0] p0]. destruct (dimof2 s 1) as [[n1 i1] p1].
  destruct F0 as (_ & _ & _ & F0). destruct F1 as (_ & _ & _ & F1).
  destruct (F0 t0) as (A1 & A2 & A3 & _). destruct (F1 t1) as (B1 & B2 & B3 & _).
  unfold srange2. rewrite A1, A3, B1, B3. cbn [rbind]. unfold mk_rangeT2.
  pose proof (region_size_fits _ t0 H0). pose proof (region_size_fits _ t1 H1).
  rewrite !u2i_small by lia. reflexivity.
Qed.

Lemma srange3_eq chk s t0 t1 t2 :
  Forall dim_fits (shape3 s) ->
  let f0 := region (dimof3 s 0) t0 in
  let f1 := region (dimof3 s 1) t1 in
  let f2 := region (dimof3 s 2) t2 in
  srange3 chk s t0 t1 t2 =
  Ok (mkRange3 (mkI3 (fst f0) (fst f1) (fst f2))
               (mkI3 (snd f0 - fst f0) (snd f1 - fst f1) (snd f2 - fst f2))).
Proof.
  intros H f0 f1 f2.
  pose proof (dim_facts3 chk s 0 ltac:(lia) H) as F0.
  pose proof (dim_facts3 chk s 1 ltac:(lia) H) as F1.
  pose proof (dim_facts3 chk s 2 ltac:(lia) H) as F2.
  assert (H0 : dim_fits (dimof3 s 0)) by (inversion_clear H; assumption).
  assert (H1 : dim_fits (dimof3 s 1)) by (inversion_clear H as [|? ? ? H']; inversion_clear H'; assumption).
  assert (H2 : dim_fits (dimof3 s 2)) by (inversion_clear H as [|? ? ? H']; inversion_clear H' as [|? ? ? H'']; inversion_clear H''; assumption).
  unfold dim_facts in F0, F1, F2. subst f0 f1 f2.
  destruct (dimof3 s 0) as [[n0 i0] p0]. destruct (dimof3 s 1) as [[n1 i1] p1].
  destruct (dimof3 s 2) as [[n2 i2] p2].
  destruct F0 as (_ & _ & _ & F0). destruct F1 as (_ & _ & _ & F1). destruct F2 as (_ & _ & _ & F2).
  destruct (F0 t0) as (A1 & A2 & A3 & _). destruct (F1 t1) as (B1 & B2 & B3 & _).
  destruct (F2 t2) as (C1 & C2 & C3 & _).
  unfold srange3. rewrite A1, A3, B1, B3, C1, C3. cbn [rbind]. unfold mk_rangeT3.
  pose proof (region_size_fits _ t0 H0). pose proof (region_size_fits _ t1 H1).
  pose proof (region_size_fits _ t2 H2).
  rewrite !u2i_small by lia. reflexivity.
Qed.
