(** Loops as runs over lists of points. *)

From Coq Require Import ZArith List Bool Lia Sorting.Sorted.
From Verif Require Import Base M_Flags M_Loop M_RS1 M_RS2 M_RS3 Spec Spec_Loop L_Base L_RS L_Range.
Import ListNotations.
Open Scope Z_scope.

(** ** zrange and points *)

Lemma zrange_nil b e : e <= b -> zrange b e = [].
Proof. intros H. unfold zrange. replace (Z.to_nat (e - b)) with O by lia. reflexivity. Qed.

Lemma zrange_cons b e : b < e -> zrange b e = b :: zrange (b + 1) e.
Proof.
  intros H. unfold zrange. replace (Z.to_nat (e - b)) with (S (Z.to_nat (e - (b + 1)))) by lia.
  cbn [seq map]. f_equal; [lia|]. rewrite <- seq_shift, map_map.
  apply map_ext. intros k. lia.
Qed.

Lemma zrange_snoc b e : b < e -> zrange b e = zrange b (e - 1) ++ [e - 1].
Proof.
  intros H. unfold zrange. replace (Z.to_nat (e - b)) with (S (Z.to_nat (e - 1 - b))) by lia.
  rewrite seq_S, map_app. cbn [map]. do 2 f_equal. lia.
Qed.

Lemma in_zrange b e x : In x (zrange b e) <-> b <= x < e.
Proof.
  unfold zrange. rewrite in_map_iff. split.
  - intros (k & <- & H). apply in_seq in H. lia.
  - intros H. exists (Z.to_nat (x - b)). split; [lia|]. apply in_seq. lia.
Qed.

Lemma length_zrange b e : length (zrange b e) = Z.to_nat (e - b).
Proof. unfold zrange. now rewrite map_length, seq_length. Qed.

Lemma nth_zrange b e k d : (k < Z.to_nat (e - b))%nat -> nth k (zrange b e) d = b + Z.of_nat k.
Proof.
  intros H. unfold zrange. rewrite (nth_indep _ d (b + Z.of_nat 0)) by (rewrite map_length, seq_length; lia).
  rewrite (map_nth (fun k => b + Z.of_nat k)). rewrite seq_nth by assumption. reflexivity.
Qed.

Lemma zrange_sorted b e : StronglySorted Z.lt (zrange b e).
Proof.
  remember (Z.to_nat (e - b)) as k eqn:Hk. revert b Hk.
  induction k as [|k IH]; intros b Hk.
  - rewrite zrange_nil by lia. constructor.
  - rewrite zrange_cons by lia. constructor.
    + apply IH. lia.
    + apply Forall_forall. intros x Hx. apply in_zrange in Hx. lia.
Qed.

Lemma in_points B q : In q (points B) <-> in_box B q.
Proof.
  revert q. induction B as [|f B IH]; intros q; cbn [points].
  - rewrite in_box_nil. cbn. intuition.
  - rewrite in_box_cons, in_flat_map. split.
    + intros (x & Hx & Hq). apply in_map_iff in Hq. destruct Hq as (q' & <- & Hq').
      exists x, q'. rewrite <- IH. rewrite in_zrange in Hx. auto.
    + intros (x & q' & -> & Hx & Hq'). exists x. rewrite in_zrange. split; [assumption|].
      apply in_map. now apply IH.
Qed.

Lemma sorted_app {A} (R : A -> A -> Prop) l1 l2 :
  StronglySorted R l1 -> StronglySorted R l2 ->
  (forall x y, In x l1 -> In y l2 -> R x y) -> StronglySorted R (l1 ++ l2).
Proof.
  induction 1 as [|x l1 H1 IH Hx]; intros H2 H; [assumption|].
  cbn. constructor.
  - apply IH; [assumption|]. intros; apply H; [now right|assumption].
  - apply Forall_app. split; [assumption|]. apply Forall_forall. intros y Hy. apply H; [now left|assumption].
Qed.

Lemma sorted_map {A B} (R : A -> A -> Prop) (R' : B -> B -> Prop) (f : A -> B) l :
  (forall x y, R x y -> R' (f x) (f y)) -> StronglySorted R l -> StronglySorted R' (map f l).
Proof.
  intros H. induction 1 as [|x l H1 IH Hx]; [constructor|]. cbn. constructor; [assumption|].
  apply Forall_map. eapply Forall_impl; [|eassumption]. auto.
Qed.

Lemma points_sorted B : StronglySorted lex_lt (points B).
Proof.
  induction B as [|f B IH]; cbn [points].
  - constructor; [constructor|constructor].
  - generalize (zrange_sorted (fst f) (snd f)). generalize (zrange (fst f) (snd f)).
    intros l Hl. induction Hl as [|x l Hl IHl Hx]; [constructor|].
    cbn [flat_map]. apply sorted_app.
    + apply (sorted_map lex_lt lex_lt (cons x)); [|assumption]. intros p q H. cbn. now right.
    + assumption.
    + intros p q Hp Hq. apply in_map_iff in Hp. destruct Hp as (p' & <- & _).
      apply in_flat_map in Hq. destruct Hq as (y & Hy & Hq). apply in_map_iff in Hq.
      destruct Hq as (q' & <- & _). cbn. left. rewrite Forall_forall in Hx. now apply Hx.
Qed.

Lemma lex_irrefl p : ~ lex_lt p p.
Proof. induction p as [|x p IH]; cbn; [tauto|]. intros [H|[_ H]]; [lia|now apply IH]. Qed.

Lemma sorted_nodup {A} (R : A -> A -> Prop) l :
  (forall x, ~ R x x) -> StronglySorted R l -> NoDup l.
Proof.
  intros HR. induction 1 as [|x l H IH Hx]; constructor; [|assumption].
  intros Hin. rewrite Forall_forall in Hx. now apply (HR x), Hx.
Qed.

Lemma points_nodup B : NoDup (points B).
Proof. apply (sorted_nodup lex_lt); [apply lex_irrefl | apply points_sorted]. Qed.

Lemma points_enumerate B :
  (forall q, In q (points B) <-> in_box B q) /\ NoDup (points B) /\ StronglySorted lex_lt (points B).
Proof. split; [apply in_points|]. split; [apply points_nodup | apply points_sorted]. Qed.

Lemma points_length B : length (points B) = fold_right Nat.mul 1%nat (map (fun f => Z.to_nat (snd f - fst f)) B).
Proof.
  induction B as [|f B IH]; [reflexivity|]. cbn [points map fold_right].
  rewrite <- (length_zrange (fst f) (snd f)). generalize (zrange (fst f) (snd f)).
  intros l. induction l as [|x l IHl]; [reflexivity|].
  cbn [flat_map length]. rewrite app_length, map_length, IHl, IH. reflexivity.
Qed.

(** ** run *)

Lemma run_ext {S A} (l : list A) (f g : A -> M S unit) :
  (forall x s, In x l -> f x s = g x s) -> forall s, run l f s = run l g s.
Proof.
  induction l as [|x l IH]; intros H s; [reflexivity|].
  cbn [run]. unfold bind. rewrite H by now left.
  destruct (g x s); [|reflexivity|reflexivity]. apply IH. intros; apply H; now right.
Qed.

Lemma run_app {S A} (l1 l2 : list A) (f : A -> M S unit) s :
  run (l1 ++ l2) f s = (run l1 f ;;; run l2 f) s.
Proof.
  revert s. induction l1 as [|x l1 IH]; intros s; [reflexivity|].
  cbn [app run]. unfold bind in *. destruct (f x s); [|reflexivity|reflexivity]. apply IH.
Qed.

Lemma run_map {S A B} (g : A -> B) (l : list A) (f : B -> M S unit) s :
  run (map g l) f s = run l (fun x => f (g x)) s.
Proof.
  revert s. induction l as [|x l IH]; intros s; [reflexivity|].
  cbn [map run]. unfold bind. destruct (f (g x) s); [|reflexivity|reflexivity]. apply IH.
Qed.

Lemma run_flat_map {S A B} (g : A -> list B) (l : list A) (f : B -> M S unit) s :
  run (flat_map g l) f s = run l (fun x => run (g x) f) s.
Proof.
  revert s. induction l as [|x l IH]; intros s; [reflexivity|].
  cbn [flat_map run]. rewrite run_app. unfold bind.
  destruct (run (g x) f s); [|reflexivity|reflexivity]. apply IH.
Qed.

Lemma iter_int_run {S} k b (f : Z -> M S unit) s :
  iter_int k b f s = run (map (fun j => b + Z.of_nat j) (seq 0 k)) f s.
Proof.
  revert b s. induction k as [|k IH]; intros b s; [reflexivity|].
  cbn [iter_int seq map run]. rewrite Z.add_0_r.
  unfold bind. destruct (f b s); [|reflexivity|reflexivity].
  rewrite IH, <- seq_shift, map_map. f_equal. apply map_ext. intros. lia.
Qed.

Lemma for_int_run {S} b e (f : Z -> M S unit) s :
  b <= e -> for_int b e f s = run (zrange b e) f s.
Proof.
  intros H. unfold for_int. apply Z.leb_le in H. rewrite H. apply iter_int_run.
Qed.

Lemma iter_uint_run {S} k b (f : Z -> M S unit) s :
  0 <= b -> b + Z.of_nat k <= UINT_MOD ->
  iter_uint k b f s = run (map (fun j => b + Z.of_nat j) (seq 0 k)) f s.
Proof.
  revert b s. induction k as [|k IH]; intros b s Hb Hk; [reflexivity|].
  cbn [iter_uint seq map run]. rewrite Z.add_0_r.
  unfold bind. destruct (f b s) as [s' a| |]; [|reflexivity|reflexivity].
  destruct k as [|k]; [reflexivity|].
  rewrite uwrap_small by (unfold in_uint; lia).
  rewrite IH by lia. rewrite <- (seq_shift (Datatypes.S k)), map_map. f_equal. apply map_ext. intros. lia.
Qed.

Lemma for_uint_run {S} b e (f : Z -> M S unit) s :
  0 <= b <= e -> e < UINT_MOD -> for_uint b e f s = run (zrange b e) f s.
Proof.
  intros H He. unfold for_uint. rewrite uwrap_small by (unfold in_uint; lia).
  rewrite iter_uint_run by lia. reflexivity.
Qed.

Lemma iter_uint_app {S} k1 k2 b (f : Z -> M S unit) s :
  0 <= b < UINT_MOD ->
  iter_uint (k1 + k2) b f s = (iter_uint k1 b f ;;; iter_uint k2 (uwrap (b + Z.of_nat k1)) f) s.
Proof.
  revert b s. induction k1 as [|k1 IH]; intros b s Hb.
  - cbn [Nat.add iter_uint]. unfold bind, ret. rewrite Z.add_0_r, uwrap_small by assumption. reflexivity.
  - cbn [Nat.add iter_uint]. unfold bind in *. destruct (f b s) as [s0 ?| |]; [|reflexivity|reflexivity].
    rewrite IH by apply uwrap_range.
    destruct (iter_uint k1 (uwrap (b + 1)) f s0); [|reflexivity|reflexivity].
    unfold uwrap. rewrite Zplus_mod_idemp_l.
    replace (b + 1 + Z.of_nat k1) with (b + Z.of_nat (Datatypes.S k1)) by lia. reflexivity.
Qed.

(** The interval wraps around when its bounds are inverted. *)
Lemma for_uint_wrap {S} b e (f : Z -> M S unit) s :
  0 <= e < b -> b < UINT_MOD ->
  for_uint b e f s = run (zrange b UINT_MOD ++ zrange 0 e) f s.
Proof.
  intros H Hb. unfold for_uint.
  replace (uwrap (e - b)) with (UINT_MOD - b + e).
  2:{ unfold uwrap. apply Z.mod_unique with (q := -1); lia. }
  replace (Z.to_nat (UINT_MOD - b + e)) with (Z.to_nat (UINT_MOD - b) + Z.to_nat e)%nat by lia.
  rewrite iter_uint_app by lia. rewrite run_app.
  replace (uwrap (b + Z.of_nat (Z.to_nat (UINT_MOD - b)))) with 0.
  2:{ unfold uwrap. rewrite Z2Nat.id by lia. replace (b + (UINT_MOD - b)) with UINT_MOD by lia. reflexivity. }
  unfold bind. rewrite iter_uint_run by lia. fold (zrange b UINT_MOD).
  destruct (run (zrange b UINT_MOD) f s); [|reflexivity|reflexivity].
  rewrite iter_uint_run by lia. unfold zrange. now rewrite Z.sub_0_r.
Qed.

(** ** Nested runs *)

Lemma run_points_nil {S} (f : list Z -> M S unit) s : run (points []) f s = f [] s.
Proof. cbn. unfold bind. destruct (f [] s) as [? []| |]; reflexivity. Qed.

Lemma run_points_cons {S} fc B (f : list Z -> M S unit) s :
  run (points (fc :: B)) f s =
  run (zrange (fst fc) (snd fc)) (fun x => run (points B) (fun q => f (x :: q))) s.
Proof.
  cbn [points]. rewrite run_flat_map. apply run_ext. intros. apply run_map.
Qed.

Lemma for1 {S} fc (f : list Z -> M S unit) s :
  fst fc <= snd fc -> for_int (fst fc) (snd fc) (fun i => f [i]) s = run (points [fc]) f s.
Proof.
  intros H. rewrite for_int_run by assumption. rewrite run_points_cons.
  apply run_ext. intros. now rewrite run_points_nil.
Qed.

Lemma for_cons {S} fc B (f : list Z -> M S unit) (g : Z -> M S unit) s :
  fst fc <= snd fc -> (forall x s, g x s = run (points B) (fun q => f (x :: q)) s) ->
  for_int (fst fc) (snd fc) g s = run (points (fc :: B)) f s.
Proof.
  intros H Hg. rewrite for_int_run by assumption. rewrite run_points_cons.
  apply run_ext. intros. apply Hg.
Qed.

Lemma foru_cons {S} fc B (f : list Z -> M S unit) (g : Z -> M S unit) s :
  0 <= fst fc <= snd fc -> snd fc < UINT_MOD ->
  (forall x s, g x s = run (points B) (fun q => f (x :: q)) s) ->
  for_uint (fst fc) (snd fc) g s = run (points (fc :: B)) f s.
Proof.
  intros H H' Hg. rewrite for_uint_run by assumption. rewrite run_points_cons.
  apply run_ext. intros. apply Hg.
Qed.

(** ** begin / end of a valid dimension *)

Lemma begin2_at chk r d : 0 <= d < 2 -> rbegin2 chk r d = Ok (fst (dim_face (faces2 r) d)).
Proof.
  intros H. assert (E : d = 0 \/ d = 1) by lia.
  destruct E as [-> | ->]; rs; reflexivity.
Qed.
Lemma end2_at chk r d : 0 <= d < 2 -> in_int (snd (dim_face (faces2 r) d)) ->
  rend2 chk r d = Ok (snd (dim_face (faces2 r) d)).
Proof.
  intros H. assert (E : d = 0 \/ d = 1) by lia.
  destruct E as [-> | ->]; rs; intros Hi; apply ck_ok, Hi.
Qed.
Lemma begin3_at chk r d : 0 <= d < 3 -> rbegin3 chk r d = Ok (fst (dim_face (faces3 r) d)).
Proof.
  intros H. assert (E : d = 0 \/ d = 1 \/ d = 2) by lia.
  destruct E as [-> | [-> | ->]]; rs; reflexivity.
Qed.
Lemma end3_at chk r d : 0 <= d < 3 -> in_int (snd (dim_face (faces3 r) d)) ->
  rend3 chk r d = Ok (snd (dim_face (faces3 r) d)).
Proof.
  intros H. assert (E : d = 0 \/ d = 1 \/ d = 2) by lia.
  destruct E as [-> | [-> | ->]]; rs; intros Hi; apply ck_ok, Hi.
Qed.

Lemma bindl {S A B} (x : res A) (a : A) (f : A -> M S B) s : x = Ok a -> bind (lift x) f s = f a s.
Proof. intros ->. reflexivity. Qed.

(** ** C21 *)

Lemma loop_D1 {S} chk r (fn : Z -> M S unit) s :
  box_ordered (faces1 r) -> PD_For_1D chk r fn s = run (points (faces1 r)) (call1 fn) s.
Proof.
  intros H. unfold faces1 in *. inversion_clear H as [|? ? (H1 & H2 & H3) _]. cbn [fst snd] in *.
  unfold PD_For_1D. rewrite rbegin1_0, rend1_0, ck_ok by assumption. rewrite !bind_lift_ok.
  apply (for1 (r1_begin r, r1_begin r + r1_size r) (call1 fn)). assumption.
Qed.

Lemma loop_N_D1 {S} chk N_b N_e r (fn : Z -> Z -> M S unit) s :
  0 <= N_b <= N_e -> N_e < UINT_MOD -> box_ordered (faces1 r) ->
  PD_For_N_1D chk N_b N_e r fn s = run (points ((N_b, N_e) :: faces1 r)) (call2 fn) s.
Proof.
  intros HN HN' H. unfold faces1 in *. inversion_clear H as [|? ? (H1 & H2 & H3) _]. cbn [fst snd] in *.
  unfold PD_For_N_1D. rewrite rbegin1_0, rend1_0, ck_ok by assumption. rewrite !bind_lift_ok.
  apply (foru_cons (N_b, N_e)); cbn [fst snd]; auto. intros n s'.
  apply (for1 (r1_begin r, r1_begin r + r1_size r) (fun q => call2 fn (n :: q))). assumption.
Qed.

Lemma loop_D2 {S} chk r (fn : Z -> Z -> M S unit) s :
  box_ordered (faces2 r) -> PD_For_2D chk r fn s = run (points (faces2 r)) (call2 fn) s.
Proof.
  intros H. unfold faces2 in *.
  inversion_clear H as [|? ? (H1 & H2 & H3) H']. inversion_clear H' as [|? ? (H4 & H5 & H6) _]. cbn [fst snd] in *.
  unfold PD_For_2D. rewrite rbegin2_0, rbegin2_1, rend2_0, rend2_1, !ck_ok by assumption. rewrite !bind_lift_ok.
  eapply (for_cons (_, _)); [assumption|]. intros ix s'. cbn [fst snd].
  eapply (for1 (_, _) (fun q => call2 fn (ix :: q))). assumption.
Qed.

Lemma loop_N_D2 {S} chk N_b N_e r (fn : Z -> Z -> Z -> M S unit) s :
  0 <= N_b <= N_e -> N_e < UINT_MOD -> box_ordered (faces2 r) ->
  PD_For_N_2D chk N_b N_e r fn s = run (points ((N_b, N_e) :: faces2 r)) (call3 fn) s.
Proof.
  intros HN HN' H. unfold faces2 in *.
  inversion_clear H as [|? ? (H1 & H2 & H3) H']. inversion_clear H' as [|? ? (H4 & H5 & H6) _]. cbn [fst snd] in *.
  unfold PD_For_N_2D. rewrite rbegin2_0, rbegin2_1, rend2_0, rend2_1, !ck_ok by assumption. rewrite !bind_lift_ok.
  apply (foru_cons (N_b, N_e)); cbn [fst snd]; auto. intros n s'.
  eapply (for_cons (_, _)); [assumption|]. intros ix s''. cbn [fst snd].
  eapply (for1 (_, _) (fun q => call3 fn (n :: ix :: q))). assumption.
Qed.

Lemma loop_D3 {S} chk r (fn : Z -> Z -> Z -> M S unit) s :
  box_ordered (faces3 r) -> PD_For_3D chk r fn s = run (points (faces3 r)) (call3 fn) s.
Proof.
  intros H. unfold faces3 in *.
  inversion_clear H as [|? ? (H1 & H2 & H3) H']. inversion_clear H' as [|? ? (H4 & H5 & H6) H''].
  inversion_clear H'' as [|? ? (H7 & H8 & H9) _]. cbn [fst snd] in *.
  unfold PD_For_3D. rewrite rbegin3_0, rbegin3_1, rbegin3_2, rend3_0, rend3_1, rend3_2, !ck_ok by assumption.
  rewrite !bind_lift_ok.
  eapply (for_cons (_, _)); [assumption|]. intros ix s'. cbn [fst snd].
  eapply (for_cons (_, _)); [assumption|]. intros iy s''. cbn [fst snd].
  eapply (for1 (_, _) (fun q => call3 fn (ix :: iy :: q))). assumption.
Qed.

Lemma loop_N_D3 {S} chk N_b N_e r (fn : Z -> Z -> Z -> Z -> M S unit) s :
  0 <= N_b <= N_e -> N_e < UINT_MOD -> box_ordered (faces3 r) ->
  PD_For_N_3D chk N_b N_e r fn s = run (points ((N_b, N_e) :: faces3 r)) (call4 fn) s.
Proof.
  intros HN HN' H. unfold faces3 in *.
  inversion_clear H as [|? ? (H1 & H2 & H3) H']. inversion_clear H' as [|? ? (H4 & H5 & H6) H''].
  inversion_clear H'' as [|? ? (H7 & H8 & H9) _]. cbn [fst snd] in *.
  unfold PD_For_N_3D. rewrite rbegin3_0, rbegin3_1, rbegin3_2, rend3_0, rend3_1, rend3_2, !ck_ok by assumption.
  rewrite !bind_lift_ok.
  apply (foru_cons (N_b, N_e)); cbn [fst snd]; auto. intros n s0.
  eapply (for_cons (_, _)); [assumption|]. intros ix s'. cbn [fst snd].
  eapply (for_cons (_, _)); [assumption|]. intros iy s''. cbn [fst snd].
  eapply (for1 (_, _) (fun q => call4 fn (n :: ix :: iy :: q))). assumption.
Qed.

Lemma ordered_at B d : box_ordered B -> 0 <= d < Z.of_nat (length B) ->
  let f := dim_face B d in in_int (fst f) /\ in_int (snd f) /\ fst f <= snd f.
Proof.
  intros H Hd. unfold dim_face. unfold box_ordered in H. rewrite Forall_forall in H.
  apply H. apply nth_In. lia.
Qed.

(** The loops over one or two of the dimensions. *)
Lemma loop_reduced {S} chk :
  (forall d r (fn : Z -> M S unit) s, 0 <= d < 2 -> box_ordered (faces2 r) ->
     PD_For_1D_2 chk d r fn s = run (points [dim_face (faces2 r) d]) (call1 fn) s) /\
  (forall N_b N_e d r (fn : Z -> Z -> M S unit) s,
     0 <= N_b <= N_e -> N_e < UINT_MOD -> 0 <= d < 2 -> box_ordered (faces2 r) ->
     PD_For_N_1D_2 chk N_b N_e d r fn s =
     run (points [(N_b, N_e); dim_face (faces2 r) d]) (call2 fn) s) /\
  (forall d r (fn : Z -> M S unit) s, 0 <= d < 3 -> box_ordered (faces3 r) ->
     PD_For_1D_3 chk d r fn s = run (points [dim_face (faces3 r) d]) (call1 fn) s) /\
  (forall N_b N_e d r (fn : Z -> Z -> M S unit) s,
     0 <= N_b <= N_e -> N_e < UINT_MOD -> 0 <= d < 3 -> box_ordered (faces3 r) ->
     PD_For_N_1D_3 chk N_b N_e d r fn s =
     run (points [(N_b, N_e); dim_face (faces3 r) d]) (call2 fn) s) /\
  (forall d e r (fn : Z -> Z -> M S unit) s, 0 <= d < 3 -> 0 <= e < 3 -> box_ordered (faces3 r) ->
     PD_For_2D_3 chk d e r fn s =
     run (points [dim_face (faces3 r) d; dim_face (faces3 r) e]) (call2 fn) s) /\
  (forall N_b N_e d e r (fn : Z -> Z -> Z -> M S unit) s,
     0 <= N_b <= N_e -> N_e < UINT_MOD -> 0 <= d < 3 -> 0 <= e < 3 -> box_ordered (faces3 r) ->
     PD_For_N_2D_3 chk N_b N_e d e r fn s =
     run (points [(N_b, N_e); dim_face (faces3 r) d; dim_face (faces3 r) e]) (call3 fn) s).
Proof.
  split; [|split; [|split; [|split; [|split]]]].
  - intros d r fn s Hd HB. destruct (ordered_at _ d HB Hd) as (A1 & A2 & A3).
    unfold PD_For_1D_2. rewrite (bindl _ _ _ _ (begin2_at chk r d Hd)), (bindl _ _ _ _ (end2_at chk r d Hd A2)).
    apply (for1 _ (call1 fn)). assumption.
  - intros N_b N_e d r fn s HN HN' Hd HB. destruct (ordered_at _ d HB Hd) as (A1 & A2 & A3).
    unfold PD_For_N_1D_2. rewrite (bindl _ _ _ _ (begin2_at chk r d Hd)), (bindl _ _ _ _ (end2_at chk r d Hd A2)).
    apply (foru_cons (N_b, N_e)); cbn [fst snd]; auto. intros n s'.
    apply (for1 _ (fun q => call2 fn (n :: q))). assumption.
  - intros d r fn s Hd HB. destruct (ordered_at _ d HB Hd) as (A1 & A2 & A3).
    unfold PD_For_1D_3. rewrite (bindl _ _ _ _ (begin3_at chk r d Hd)), (bindl _ _ _ _ (end3_at chk r d Hd A2)).
    apply (for1 _ (call1 fn)). assumption.
  - intros N_b N_e d r fn s HN HN' Hd HB. destruct (ordered_at _ d HB Hd) as (A1 & A2 & A3).
    unfold PD_For_N_1D_3. rewrite (bindl _ _ _ _ (begin3_at chk r d Hd)), (bindl _ _ _ _ (end3_at chk r d Hd A2)).
    apply (foru_cons (N_b, N_e)); cbn [fst snd]; auto. intros n s'.
    apply (for1 _ (fun q => call2 fn (n :: q))). assumption.
  - intros d e r fn s Hd He HB. destruct (ordered_at _ d HB Hd) as (A1 & A2 & A3).
    destruct (ordered_at _ e HB He) as (A4 & A5 & A6).
    unfold PD_For_2D_3.
    rewrite (bindl _ _ _ _ (begin3_at chk r d Hd)), (bindl _ _ _ _ (end3_at chk r d Hd A2)).
    rewrite (bindl _ _ _ _ (begin3_at chk r e He)), (bindl _ _ _ _ (end3_at chk r e He A5)).
    apply for_cons; [assumption|]. intros x s'.
    apply (for1 _ (fun q => call2 fn (x :: q))). assumption.
  - intros N_b N_e d e r fn s HN HN' Hd He HB. destruct (ordered_at _ d HB Hd) as (A1 & A2 & A3).
    destruct (ordered_at _ e HB He) as (A4 & A5 & A6).
    unfold PD_For_N_2D_3.
    rewrite (bindl _ _ _ _ (begin3_at chk r d Hd)), (bindl _ _ _ _ (end3_at chk r d Hd A2)).
    rewrite (bindl _ _ _ _ (begin3_at chk r e He)), (bindl _ _ _ _ (end3_at chk r e He A5)).
    apply (foru_cons (N_b, N_e)); cbn [fst snd]; auto. intros n s0.
    apply for_cons; [assumption|]. intros x s'.
    apply (for1 _ (fun q => call3 fn (n :: x :: q))). assumption.
Qed.

Lemma loop_components {S} N_b N_e (fn : Z -> M S unit) s :
  0 <= N_b <= N_e -> N_e < UINT_MOD -> PD_For_N N_b N_e fn s = run (zrange N_b N_e) fn s.
Proof. intros. now apply for_uint_run. Qed.

(** ** C22 *)

Definition never_ret {S A} (m : M S A) : Prop := forall s s' a, m s <> Ret s' a.

Lemma run_never {S A} (l : list A) (f : A -> M S unit) x :
  In x l -> never_ret (f x) -> never_ret (run l f).
Proof.
  induction l as [|y l IH]; [intros []|].
  intros Hin Hf s s' a. cbn [run]. unfold bind. destruct Hin as [->|Hin].
  - destruct (f x s) eqn:E; [exfalso; eapply Hf; eassumption | discriminate | discriminate].
  - destruct (f y s); [|discriminate|discriminate]. now apply IH.
Qed.

Lemma for_int_never_here {S} b e (f : Z -> M S unit) : e < b -> never_ret (for_int b e f).
Proof.
  intros H s s' a. unfold for_int. apply Z.leb_gt in H. rewrite H. unfold bind.
  destruct (iter_int _ _ _ _); discriminate.
Qed.

Lemma for_int_never_in {S} b e (f : Z -> M S unit) :
  b < e -> (forall x, never_ret (f x)) -> never_ret (for_int b e f).
Proof.
  intros H Hf s s' a. rewrite for_int_run by lia.
  apply (run_never _ _ b); [apply in_zrange; lia | apply Hf].
Qed.

Lemma for_uint_never_in {S} b e (f : Z -> M S unit) :
  0 <= b < e -> e < UINT_MOD -> (forall x, never_ret (f x)) -> never_ret (for_uint b e f).
Proof.
  intros H He Hf s s' a. rewrite for_uint_run by lia.
  apply (run_never _ _ b); [apply in_zrange; lia | apply Hf].
Qed.

Ltac inv_fi H := repeat match type of H with
  | Forall _ (_ :: _) => let A := fresh "A" in let B := fresh "B" in
     inversion_clear H as [|? ? [A B] H']; rename H' into H end.

Lemma inverted_D1 {S} chk r (fn : Z -> M S unit) s s' :
  faces_int (faces1 r) -> inverted (faces1 r) -> PD_For_1D chk r fn s <> Ret s' tt.
Proof.
  intros HF HI. unfold faces_int, faces1 in *. inversion_clear HF as [|? ? [A B] _]. cbn [fst snd] in *.
  unfold PD_For_1D. rewrite rbegin1_0, rend1_0, ck_ok by assumption. rewrite !bind_lift_ok.
  inversion HI as [? ? H|? ? H H']; subst; cbn [fst snd] in *.
  - now apply for_int_never_here.
  - inversion H'.
Qed.

Lemma inverted_D2 {S} chk r (fn : Z -> Z -> M S unit) s s' :
  faces_int (faces2 r) -> inverted (faces2 r) -> PD_For_2D chk r fn s <> Ret s' tt.
Proof.
  intros HF HI. unfold faces_int, faces2 in *.
  inversion_clear HF as [|? ? [A B] HF']. inversion_clear HF' as [|? ? [C D] _]. cbn [fst snd] in *.
  unfold PD_For_2D. rewrite rbegin2_0, rbegin2_1, rend2_0, rend2_1, !ck_ok by assumption. rewrite !bind_lift_ok.
  inversion HI as [? ? H|? ? H H']; subst; cbn [fst snd] in *.
  - now apply for_int_never_here.
  - apply for_int_never_in; [assumption|]. intros ix.
    inversion H' as [? ? G|? ? G G']; subst; cbn [fst snd] in *.
    + now apply for_int_never_here.
    + inversion G'.
Qed.

Lemma inverted_D3 {S} chk r (fn : Z -> Z -> Z -> M S unit) s s' :
  faces_int (faces3 r) -> inverted (faces3 r) -> PD_For_3D chk r fn s <> Ret s' tt.
Proof.
  intros HF HI. unfold faces_int, faces3 in *.
  inversion_clear HF as [|? ? [A B] HF']. inversion_clear HF' as [|? ? [C D] HF''].
  inversion_clear HF'' as [|? ? [E F] _]. cbn [fst snd] in *.
  unfold PD_For_3D. rewrite rbegin3_0, rbegin3_1, rbegin3_2, rend3_0, rend3_1, rend3_2, !ck_ok by assumption.
  rewrite !bind_lift_ok.
  inversion HI as [? ? H|? ? H H']; subst; cbn [fst snd] in *.
  - now apply for_int_never_here.
  - apply for_int_never_in; [assumption|]. intros ix.
    inversion H' as [? ? G|? ? G G']; subst; cbn [fst snd] in *.
    + now apply for_int_never_here.
    + apply for_int_never_in; [assumption|]. intros iy.
      inversion G' as [? ? K|? ? K K']; subst; cbn [fst snd] in *.
      * now apply for_int_never_here.
      * inversion K'.
Qed.

(** With a body that always returns the outcome is undefined behaviour, after
    calls at and beyond the high end. *)
Lemma run_total {S A} (l : list A) (f : A -> M S unit) :
  (forall x s, exists s', f x s = Ret s' tt) -> forall s, exists s', run l f s = Ret s' tt.
Proof.
  intros H. induction l as [|x l IH]; intros s; [eexists; reflexivity|].
  destruct (H x s) as [s1 E]. cbn [run]. unfold bind. rewrite E. apply IH.
Qed.

Lemma inverted_undef_D1 {S} chk r (fn : Z -> M S unit) s :
  faces_int (faces1 r) -> inverted (faces1 r) ->
  (forall x s, exists s', fn x s = Ret s' tt) -> PD_For_1D chk r fn s = Undef.
Proof.
  intros HF HI Ht. unfold faces_int, faces1 in *. inversion_clear HF as [|? ? [A B] _]. cbn [fst snd] in *.
  unfold PD_For_1D. rewrite rbegin1_0, rend1_0, ck_ok by assumption. rewrite !bind_lift_ok.
  inversion HI as [? ? H|? ? H H']; subst; cbn [fst snd] in *; [|inversion H'].
  unfold for_int. apply Z.leb_gt in H. rewrite H. unfold bind. rewrite iter_int_run.
  match goal with |- context [run ?l fn s] => destruct (run_total l fn Ht s) as [s1 E] end.
  rewrite E. reflexivity.
Qed.

(** Every call the loop makes before it is stopped is at or beyond [begin],
    hence outside the (empty) range; stated for the run of calls. *)
Lemma inverted_calls_D1 {S} chk r (fn : Z -> M S unit) s s' e :
  faces_int (faces1 r) -> inverted (faces1 r) ->
  PD_For_1D chk r fn s = Thr s' e ->
  run (zrange (r1_begin r) (INT_MAX + 1)) fn s = Thr s' e.
Proof.
  intros HF HI. unfold faces_int, faces1 in *. inversion_clear HF as [|? ? [A B] _]. cbn [fst snd] in *.
  unfold PD_For_1D. rewrite rbegin1_0, rend1_0, ck_ok by assumption. rewrite !bind_lift_ok.
  inversion HI as [? ? H|? ? H H']; subst; cbn [fst snd] in *; [|inversion H'].
  unfold for_int. apply Z.leb_gt in H. rewrite H. unfold bind. rewrite iter_int_run.
  replace (INT_MAX - r1_begin r + 1) with (INT_MAX + 1 - r1_begin r) by lia.
  fold (zrange (r1_begin r) (INT_MAX + 1)).
  destruct (run _ _ _); try discriminate. auto.
Qed.

Lemma component_interval_wraps {S} N_b N_e (fn : Z -> M S unit) s :
  0 <= N_e < N_b -> N_b < UINT_MOD ->
  PD_For_N N_b N_e fn s = run (zrange N_b UINT_MOD ++ zrange 0 N_e) fn s.
Proof. intros. now apply for_uint_wrap. Qed.

(** ** C23 *)

Lemma red_step_run {S T A} (reduce : T -> T -> res T) (l : list A) (fn : A -> M S T) ans temp s :
  (match run l (fun x => red_step reduce (fn x)) (s, temp) with
   | Ret (s', t) _ => lift (reduce t ans) s'
   | Thr (s', _) e => Thr s' e
   | Undef => Undef
   end) = reduce_run reduce l fn temp ans s.
Proof.
  revert s temp. induction l as [|x l IH]; intros s temp; [reflexivity|].
  cbn [run reduce_run]. unfold bind at 1. unfold bind at 1.
  unfold red_step at 1, bind at 1, on_fst. destruct (fn x s) as [s1 v|s1 e|]; try reflexivity.
  unfold bind, lift. destruct (reduce v temp); try reflexivity. apply IH.
Qed.

Lemma red_frame_run {S T A} (reduce : T -> T -> res T) (l : list A) (fn : A -> M S T) ans loop s :
  (forall st, loop st = run l (fun x => red_step reduce (fn x)) st) ->
  red_frame ans reduce loop s = reduce_run reduce l fn ans ans s.
Proof. intros H. unfold red_frame. rewrite H. apply red_step_run. Qed.

Lemma reduce_D1 {S T} chk r ans (reduce : T -> T -> res T) (fn : Z -> M S T) s :
  box_ordered (faces1 r) ->
  PD_Reduce_1D chk r ans reduce fn s = reduce_run reduce (points (faces1 r)) (call1 fn) ans ans s.
Proof.
  intros H. unfold PD_Reduce_1D. apply red_frame_run. intros st.
  apply (loop_D1 chk r (fun i => red_step reduce (fn i)) st H).
Qed.

Lemma reduce_N_D1 {S T} chk N_b N_e r ans (reduce : T -> T -> res T) (fn : Z -> Z -> M S T) s :
  0 <= N_b <= N_e -> N_e < UINT_MOD -> box_ordered (faces1 r) ->
  PD_Reduce_N_1D chk N_b N_e r ans reduce fn s =
  reduce_run reduce (points ((N_b, N_e) :: faces1 r)) (call2 fn) ans ans s.
Proof.
  intros H1 H2 H. unfold PD_Reduce_N_1D. apply red_frame_run. intros st.
  apply (loop_N_D1 chk N_b N_e r (fun n i => red_step reduce (fn n i)) st H1 H2 H).
Qed.

Lemma reduce_D2 {S T} chk r ans (reduce : T -> T -> res T) (fn : Z -> Z -> M S T) s :
  box_ordered (faces2 r) ->
  PD_Reduce_2D chk r ans reduce fn s = reduce_run reduce (points (faces2 r)) (call2 fn) ans ans s.
Proof.
  intros H. unfold PD_Reduce_2D. apply red_frame_run. intros st.
  apply (loop_D2 chk r (fun i j => red_step reduce (fn i j)) st H).
Qed.

Lemma reduce_N_D2 {S T} chk N_b N_e r ans (reduce : T -> T -> res T) (fn : Z -> Z -> Z -> M S T) s :
  0 <= N_b <= N_e -> N_e < UINT_MOD -> box_ordered (faces2 r) ->
  PD_Reduce_N_2D chk N_b N_e r ans reduce fn s =
  reduce_run reduce (points ((N_b, N_e) :: faces2 r)) (call3 fn) ans ans s.
Proof.
  intros H1 H2 H. unfold PD_Reduce_N_2D. apply red_frame_run. intros st.
  apply (loop_N_D2 chk N_b N_e r (fun n i j => red_step reduce (fn n i j)) st H1 H2 H).
Qed.

Lemma reduce_D3 {S T} chk r ans (reduce : T -> T -> res T) (fn : Z -> Z -> Z -> M S T) s :
  box_ordered (faces3 r) ->
  PD_Reduce_3D chk r ans reduce fn s = reduce_run reduce (points (faces3 r)) (call3 fn) ans ans s.
Proof.
  intros H. unfold PD_Reduce_3D. apply red_frame_run. intros st.
  apply (loop_D3 chk r (fun i j k => red_step reduce (fn i j k)) st H).
Qed.

Lemma reduce_N_D3 {S T} chk N_b N_e r ans (reduce : T -> T -> res T) (fn : Z -> Z -> Z -> Z -> M S T) s :
  0 <= N_b <= N_e -> N_e < UINT_MOD -> box_ordered (faces3 r) ->
  PD_Reduce_N_3D chk N_b N_e r ans reduce fn s =
  reduce_run reduce (points ((N_b, N_e) :: faces3 r)) (call4 fn) ans ans s.
Proof.
  intros H1 H2 H. unfold PD_Reduce_N_3D. apply red_frame_run. intros st.
  apply (loop_N_D3 chk N_b N_e r (fun n i j k => red_step reduce (fn n i j k)) st H1 H2 H).
Qed.

Lemma reduce_reduced {S T} chk ans (reduce : T -> T -> res T) :
  (forall d r (fn : Z -> M S T) s, 0 <= d < 2 -> box_ordered (faces2 r) ->
     PD_Reduce_1D_2 chk d r ans reduce fn s =
     reduce_run reduce (points [dim_face (faces2 r) d]) (call1 fn) ans ans s) /\
  (forall N_b N_e d r (fn : Z -> Z -> M S T) s,
     0 <= N_b <= N_e -> N_e < UINT_MOD -> 0 <= d < 2 -> box_ordered (faces2 r) ->
     PD_Reduce_N_1D_2 chk N_b N_e d r ans reduce fn s =
     reduce_run reduce (points [(N_b, N_e); dim_face (faces2 r) d]) (call2 fn) ans ans s) /\
  (forall d r (fn : Z -> M S T) s, 0 <= d < 3 -> box_ordered (faces3 r) ->
     PD_Reduce_1D_3 chk d r ans reduce fn s =
     reduce_run reduce (points [dim_face (faces3 r) d]) (call1 fn) ans ans s) /\
  (forall N_b N_e d r (fn : Z -> Z -> M S T) s,
     0 <= N_b <= N_e -> N_e < UINT_MOD -> 0 <= d < 3 -> box_ordered (faces3 r) ->
     PD_Reduce_N_1D_3 chk N_b N_e d r ans reduce fn s =
     reduce_run reduce (points [(N_b, N_e); dim_face (faces3 r) d]) (call2 fn) ans ans s) /\
  (forall d e r (fn : Z -> Z -> M S T) s, 0 <= d < 3 -> 0 <= e < 3 -> box_ordered (faces3 r) ->
     PD_Reduce_2D_3 chk d e r ans reduce fn s =
     reduce_run reduce (points [dim_face (faces3 r) d; dim_face (faces3 r) e]) (call2 fn) ans ans s) /\
  (forall N_b N_e d e r (fn : Z -> Z -> Z -> M S T) s,
     0 <= N_b <= N_e -> N_e < UINT_MOD -> 0 <= d < 3 -> 0 <= e < 3 -> box_ordered (faces3 r) ->
     PD_Reduce_N_2D_3 chk N_b N_e d e r ans reduce fn s =
     reduce_run reduce (points [(N_b, N_e); dim_face (faces3 r) d; dim_face (faces3 r) e]) (call3 fn) ans ans s).
Proof.
  destruct (@loop_reduced (S * T) chk) as (L1 & L2 & L3 & L4 & L5 & L6).
  split; [|split; [|split; [|split; [|split]]]]; intros; apply red_frame_run; intros st.
  - apply (L1 d r (fun i => red_step reduce (fn i)) st); assumption.
  - apply (L2 N_b N_e d r (fun n i => red_step reduce (fn n i)) st); assumption.
  - apply (L3 d r (fun i => red_step reduce (fn i)) st); assumption.
  - apply (L4 N_b N_e d r (fun n i => red_step reduce (fn n i)) st); assumption.
  - apply (L5 d e r (fun i j => red_step reduce (fn i j)) st); assumption.
  - apply (L6 N_b N_e d e r (fun n i j => red_step reduce (fn n i j)) st); assumption.
Qed.

Lemma reduce_components {S T} N_b N_e ans (reduce : T -> T -> res T) (fn : Z -> M S T) s :
  0 <= N_b <= N_e -> N_e < UINT_MOD ->
  PD_Reduce_N N_b N_e ans reduce fn s = reduce_run reduce (zrange N_b N_e) fn ans ans s.
Proof.
  intros H1 H2. unfold PD_Reduce_N. apply red_frame_run. intros st. now apply for_uint_run.
Qed.

(** Pure values: a fold. *)
Lemma reduce_run_pure {S T A} (op : T -> T -> T) (l : list A) (f : A -> T) acc last (s : S) :
  reduce_run (fun x acc => Ok (op x acc)) l (fun x => ret (f x)) acc last s =
  Ret s (op (fold_left (fun a x => op (f x) a) l acc) last).
Proof.
  revert acc. induction l as [|x l IH]; intros acc; [reflexivity|].
  cbn [reduce_run fold_left]. unfold bind, ret, lift. apply IH.
Qed.

Lemma reduce_fold_D3 {S T} chk r ans (op : T -> T -> T) (f : Z -> Z -> Z -> T) (s : S) :
  box_ordered (faces3 r) ->
  PD_Reduce_3D chk r ans (fun x acc => Ok (op x acc)) (fun i j k => ret (f i j k)) s =
  Ret s (op (fold_left (fun a q => op (call3 f q) a) (points (faces3 r)) ans) ans).
Proof. intros H. rewrite reduce_D3 by assumption. apply reduce_run_pure. Qed.

Lemma sum_run {S A} (l : list A) (f : A -> Z) acc last (s : S) r :
  reduce_run RF_SUM l (fun x => ret (f x)) acc last s = Ret s r ->
  r = acc + zsum (map f l) + last.
Proof.
  revert acc. induction l as [|x l IH]; intros acc; cbn [reduce_run map zsum fold_right].
  - unfold RF_SUM, iadd, lift, ck. destruct (in_intb _); intros [= <-]; lia.
  - unfold bind at 1, ret. unfold RF_SUM at 1, iadd, bind, lift, ck.
    destruct (in_intb _); [|discriminate]. intros H. apply IH in H. unfold zsum in H. lia.
Qed.

Lemma prod_run {S A} (l : list A) (f : A -> Z) acc last (s : S) r :
  reduce_run RF_PRO l (fun x => ret (f x)) acc last s = Ret s r ->
  r = acc * zprod (map f l) * last.
Proof.
  revert acc. induction l as [|x l IH]; intros acc; cbn [reduce_run map zprod fold_right].
  - unfold RF_PRO, imul, lift, ck. destruct (in_intb _); intros [= <-]; lia.
  - unfold bind at 1, ret. unfold RF_PRO at 1, imul, bind, lift, ck.
    destruct (in_intb _); [|discriminate]. intros H. apply IH in H. unfold zprod in H.
    rewrite H. ring.
Qed.

Lemma max_run {S A} (l : list A) (f : A -> Z) acc last (s : S) :
  reduce_run RF_MAX l (fun x => ret (f x)) acc last s =
  Ret s (Z.max (fold_right Z.max acc (map f l)) last).
Proof.
  revert acc. induction l as [|x l IH]; intros acc; cbn [reduce_run map fold_right].
  - unfold RF_MAX, lift. f_equal. destruct (_ <? _) eqn:E; zcmp; lia.
  - unfold bind at 1, ret. unfold RF_MAX at 1, bind, lift. rewrite IH. f_equal. f_equal.
    replace (if acc <? f x then f x else acc) with (Z.max acc (f x)) by (destruct (_ <? _) eqn:E; zcmp; lia).
    clear IH. generalize (map f l). intros m. induction m as [|y m IHm]; cbn [fold_right]; lia.
Qed.

Lemma min_run {S A} (l : list A) (f : A -> Z) acc last (s : S) :
  reduce_run RF_MIN l (fun x => ret (f x)) acc last s =
  Ret s (Z.min (fold_right Z.min acc (map f l)) last).
Proof.
  revert acc. induction l as [|x l IH]; intros acc; cbn [reduce_run map fold_right].
  - unfold RF_MIN, lift. f_equal. destruct (_ >? _) eqn:E; zcmp; lia.
  - unfold bind at 1, ret. unfold RF_MIN at 1, bind, lift. rewrite IH. f_equal. f_equal.
    replace (if acc >? f x then f x else acc) with (Z.min acc (f x)) by (destruct (_ >? _) eqn:E; zcmp; lia).
    clear IH. generalize (map f l). intros m. induction m as [|y m IHm]; cbn [fold_right]; lia.
Qed.

Lemma int_reducers_D2 {S} chk r ans (f : Z -> Z -> Z) (s s' : S) v :
  box_ordered (faces2 r) ->
  let fn := fun i j => ret (f i j) in
  let vals := map (call2 f) (points (faces2 r)) in
  (PD_Reduce_2D chk r ans RF_SUM fn s = Ret s' v -> v = ans + zsum vals + ans) /\
  (PD_Reduce_2D chk r ans RF_PRO fn s = Ret s' v -> v = ans * zprod vals * ans) /\
  PD_Reduce_2D chk r ans RF_MAX fn s = Ret s (fold_right Z.max ans vals) /\
  PD_Reduce_2D chk r ans RF_MIN fn s = Ret s (fold_right Z.min ans vals).
Proof.
  intros H fn vals. rewrite !reduce_D2 by assumption.
  assert (St : forall red, reduce_run red (points (faces2 r)) (call2 fn) ans ans s = Ret s' v -> s' = s).
  { intros red. generalize ans at 1. generalize (points (faces2 r)). intros l.
    induction l as [|x l IH]; intros acc; cbn [reduce_run].
    - unfold lift. destruct (red acc ans); intros [= <-]; reflexivity.
    - unfold bind at 1, call2 at 1, fn at 1, ret. unfold bind, lift. destruct (red _ _); try discriminate. apply IH. }
  split; [|split; [|split]].
  - intros E. rewrite (St _ E) in E. apply (sum_run _ (call2 f)) in E. assumption.
  - intros E. rewrite (St _ E) in E. apply (prod_run _ (call2 f)) in E. assumption.
  - etransitivity; [apply (max_run _ (call2 f))|]. f_equal.
    fold vals. generalize vals. intros l. induction l as [|x l IH]; cbn [fold_right]; lia.
  - etransitivity; [apply (min_run _ (call2 f))|]. f_equal.
    fold vals. generalize vals. intros l. induction l as [|x l IH]; cbn [fold_right]; lia.
Qed.

Lemma max_abs_witness :
  exists (r : rangeT1) (ans : Z),
    points (faces1 r) = [] /\
    PD_Reduce_1D true r ans RF_MAX_ABS (fun i => ret i) tt = Ret tt (- ans) /\ ans < 0.
Proof. exists (mkRange1 0 0), (-5). repeat split. Qed.
