(** Copies between the ghost points and the interior points of arrays that touch, in any dimension. *)

From Coq Require Import ZArith List Bool Lia.
From Verif Require Import Base M_Flags M_Loop M_RS1 M_RS2 M_RS3 M_Heap M_PD1 M_PD2 M_PD3 M_World M_Client M_Examples
  Spec Spec_Loop Spec_Array Spec_Hist Spec_Reach Spec_Mode Spec_Client
  L_Base L_RS L_Range L_Loop L_Heap L_Lin L_Rep L_PD1 L_PD2 L_PD3 L_Kind L_Copy L_World L_Sim L_Access L_Copies L_Client L_Examples.
Import ListNotations.
Open Scope Z_scope.

Section Copy.
Context {V : Type}.
Implicit Types (w : world V) (aw : aworld V).
Notation shapes := (nat -> option (kind * list dim_shape)).
Notation store := (@store V).

(** The store after a copy. *)
Definition cover (f : store) (d s : nat) (B : box) (A a : list Z) : store :=
  fun x n q => if Nat.eqb x d && in_boxb B q then f s n (partner A a q) else f x n q.

Lemma shp_live aw a k gs : shp aw a = Some (k, gs) -> exists f, afind aw a = Some (k, ALive gs f).
Proof.
  unfold shp. destruct (afind aw a) as [[k' [|gs' f|]]|]; try discriminate. intros [= -> ->]. now exists f.
Qed.

Lemma slot_FC q : slot_of q (repeat FC (length q)) = q.
Proof.
  unfold slot_of. induction q as [|x q IH]; [reflexivity|]. cbn. f_equal; [lia|]. exact IH.
Qed.

Lemma ht_copy F chk (sh : shapes) f d s k gd gs ts us fl :
  sh d = Some (k, gd) -> sh s = Some (k, gs) ->
  let R := regions gd ts in let r := regions gs us in let A := edges R fl in let a := edges r fl in
  let B := copy_box (k_locs k) R r A a in
  length ts = length us -> length ts = length fl -> length ts = length (k_locs k) -> length R = length (k_locs k) ->
  copy_fits R r A a -> copy_error (k_locs k) (Nat.eqb d s) R r A a = None ->
  (forall q, in_box B q -> in_box (slot_box gd (k_locs k)) q /\ in_box (slot_box gs (k_locs k)) (partner A a q)) ->
  ht F (at_st sh f) (call chk (CopyTagFl d s ts us fl)) (fun _ => at_st sh (cover f d s B A a)).
Proof.
  intros Hd Hs R r A a B L1 L2 L3 L4 Hf He Hin h w aw HA HP. pose proof HP as (HI & Hsh & Hst).
  destruct (shp_live aw d k gd) as (fd & Ed); [now rewrite Hsh|]. destruct (shp_live aw s k gs) as (fs & Es); [now rewrite Hsh|].
  set (c := CopyTagFl d s ts us fl : op V).
  assert (E : astep F aw c = (with_arr aw d (Some (k, ALive gd (fun n q => if in_boxb B q then fs n (partner A a q) else fd n q))), RDone)).
  { unfold c. cbn [astep]. unfold a_copy. rewrite Ed, Es. unfold tag_box. cbn [a_shape].
    fold R. fold r. fold A. fold a. rewrite He. reflexivity. }
  destruct (call_ok chk F h w aw c HA) as (w' & E1 & HA').
  { unfold c. cbn [legal]. split; [exact L1|]. split; [exact L2|]. split; [unfold exists_arr; rewrite Ed; exact L3|].
    unfold legal_copy, exists_arr. rewrite Ed, Es. split; [reflexivity|]. unfold tag_box. cbn [a_shape].
    fold R. fold r. fold A. fold a. split; [exact L4|]. split; [exact Hf|]. intros _. exact Hin. }
  { intros e. rewrite E. discriminate. }
  rewrite E in E1, HA'. cbn [fst snd] in E1, HA'.
  match type of HA' with after _ _ _ ?x => set (aw' := x) in * end.
  assert (Hat : forall x, afind aw' x = if Nat.eqb x d then Some (k, ALive gd (fun n q => if in_boxb B q then fs n (partner A a q) else fd n q)) else afind aw x).
  { intros x. unfold aw'. apply (afind_with _ _ _ _ _ Ed). }
  exists [c], w', aw', RDone. split; [exact E1|]. split; [split; [exact HA'|constructor; [exact I|constructor]]|]. split; [|split].
  - intros x k' gs' nb. rewrite Hat. destruct (Nat.eqb x d); [discriminate|apply HI].
  - intros x. rewrite <- Hsh. unfold shp. rewrite Hat. destruct (Nat.eqb_spec x d) as [->|]; [now rewrite Ed|reflexivity].
  - intros p. unfold st, look, cover. rewrite Hat. destruct (Nat.eqb_spec (p_arr p) d) as [E2|]; cbn [andb].
    + destruct (in_boxb B (slot_of (p_at p) (p_fl p))).
      * specialize (Hst (Elt s (p_comp p) (partner A a (slot_of (p_at p) (p_fl p))) (repeat FC (length (partner A a (slot_of (p_at p) (p_fl p))))))).
        unfold st, look in Hst. cbn [p_arr p_comp p_at p_fl] in Hst. rewrite Es, slot_FC in Hst. exact Hst.
      * specialize (Hst p). unfold st, look in Hst. rewrite E2, Ed in Hst. rewrite E2. exact Hst.
    + specialize (Hst p). unfold st, look in Hst. exact Hst.
Qed.

End Copy.

(** In one dimension: shapes of destination and source, their tags, the flag, the slots written, and their distance to
    the slots read. *)
Inductive link : dim_shape -> dim_shape -> ra -> ra -> bflag -> Z * Z -> Z -> Prop :=
| link_P g n n' : 1 <= g <= n' -> 0 <= n -> n + 2 * g <= 1073741824 -> n' + 2 * g <= 1073741824 ->
    link (g, n, g) (g, n', g) RP RIN BN (n, n + g) n
| link_N g n n' : 1 <= g <= n' -> 0 <= n -> n + 2 * g <= 1073741824 -> n' + 2 * g <= 1073741824 ->
    link (g, n, g) (g, n', g) RN RIN BP (- g, 0) (- n')
| link_I g n fl : 0 <= g -> 1 <= n -> n + 2 * g <= 1073741824 -> link (g, n, g) (g, n, g) RIN RIN fl (0, n) 0
| link_A g n fl : 0 <= g -> 1 <= n -> n + 2 * g <= 1073741824 -> link (g, n, g) (g, n, g) RALL RALL fl (- g, n + g) 0.

Inductive links : list dim_shape -> list dim_shape -> list ra -> list ra -> list bflag -> box -> list Z -> Prop :=
| links_nil : links [] [] [] [] [] [] []
| links_cons x y t u fl b s gd gs ts us fls B S :
    link x y t u fl b s -> links gd gs ts us fls B S -> links (x :: gd) (y :: gs) (t :: ts) (u :: us) (fl :: fls) (b :: B) (s :: S).

(** What is needed of a dimension. *)
Lemma link_facts x y t u fl b s : link x y t u fl b s ->
  let R := region x t in let r := region y u in let A := edge R fl in let a := edge r fl in
  dim_copy_fits R r A a /\ cap R (fst r + (A - a), snd r + (A - a)) = b /\ A - a = s /\
  meetb R (fst r + (A - a), snd r + (A - a)) = true /\
  fst (slots x center) <= fst b /\ snd b <= snd (slots x center) /\
  fst (slots y center) <= fst b - s /\ snd b - s <= snd (slots y center).
Proof.
  intros H R r A a. subst R r A a. destruct H; unfold dim_copy_fits, in_int, cap, meetb, region, edge, slots;
    try destruct fl; cbn [fst snd loc_val]; rewrite ?andb_true_iff, ?Z.ltb_lt;
    (split; [lia|]); (split; [f_equal; lia|]); lia.
Qed.

(** A dimension in which an array may be copied onto itself. *)
Lemma link_apart x t u fl b s : link x x t u fl b s -> t <> RIN -> t <> RALL ->
  let R := region x t in let r := region x u in let A := edge R fl in let a := edge r fl in
  meetb (fst R + (a - A) - loc_val center, snd R + (a - A) + loc_val center) (cap R (fst r + (A - a), snd r + (A - a))) = false.
Proof.
  intros H N1 N2 R r A a. subst R r A a. inversion H; subst; try congruence; unfold cap, meetb, region, edge; cbn [fst snd loc_val];
    rewrite andb_false_iff, !Z.ltb_ge; lia.
Qed.

Section Links.
Context {V : Type}.
Notation shapes := (nat -> option (kind * list dim_shape)).
Notation store := (@store V).

Definition carry (f : store) (d s : nat) (B : box) (S : list Z) : store :=
  fun x n q => if Nat.eqb x d && in_boxb B q then f s n (vsub q S) else f x n q.

Lemma links_length gd gs ts us fls B S : links gd gs ts us fls B S ->
  length gs = length gd /\ length ts = length gd /\ length us = length gd /\ length fls = length gd /\ length B = length gd /\ length S = length gd.
Proof. induction 1 as [|x y t u fl b s gd gs ts us fls B S _ _ IH]; cbn [length]; [auto 10|]. lia. Qed.

Lemma links_facts gd gs ts us fls B S : links gd gs ts us fls B S ->
  let R := regions gd ts in let r := regions gs us in let A := edges R fls in let a := edges r fls in
  let ls := repeat center (length gd) in
  length R = length gd /\ copy_fits R r A a /\ copy_box ls R r A a = B /\ vsub A a = S /\ meetsb R (shift_box (vsub A a) r) = true /\
  (forall q, in_box B q -> in_box (slot_box gd ls) q /\ in_box (slot_box gs ls) (vsub q S)).
Proof.
  induction 1 as [|x y t u fl b s gd gs ts us fls B S Hl _ IH]; cbv zeta in *.
  - do 5 (split; [first [reflexivity|exact I]|]). intros q Hq. apply in_box_nil in Hq. subst q. split; now apply in_box_nil.
  - destruct IH as (I1 & I2 & I3 & I4 & I5 & I6). destruct (link_facts _ _ _ _ _ _ _ Hl) as (F1 & F2 & F3 & F4 & F5 & F6 & F7 & F8).
    unfold regions, edges in *. cbn [combine map length repeat]. 
    split; [now rewrite I1|]. split; [split; assumption|]. split; [|split; [|split]].
    + unfold copy_box, widen_high, caps, shift_box, vsub in *. cbn [combine map]. rewrite I3. f_equal. rewrite F2. cbn [loc_val]. destruct b. cbn [fst snd]. f_equal. lia.
    + unfold vsub in *. cbn [combine map]. now rewrite I4, F3.
    + unfold meetsb, shift_box, vsub in *. cbn [combine map forallb]. rewrite F4, I5. reflexivity.
    + intros q Hq. apply in_box_cons in Hq. destruct Hq as (z & q' & -> & Hz & Hq'). destruct (I6 q' Hq') as [J1 J2].
      unfold slot_box in *. cbn [combine map].
      split; apply in_box_cons; [exists z, q'|exists (z - s), (vsub q' S)]; (split; [reflexivity|]); (split; [lia|assumption]).
Qed.

Lemma links_apart gd ts us fls B S : links gd gd ts us fls B S -> Exists (fun t => t <> RIN /\ t <> RALL) ts ->
  let R := regions gd ts in let r := regions gd us in let A := edges R fls in let a := edges r fls in
  meetsb (widen (repeat center (length gd)) (shift_box (vsub a A) R)) (caps R (shift_box (vsub A a) r)) = false.
Proof.
  remember gd as gs eqn:Eg. rewrite Eg at 1. intros H. revert Eg.
  induction H as [|x y t u fl b s gd gs ts us fls B S Hl _ IH]; intros Eg He; cbv zeta in *; [now apply Exists_nil in He|].
  injection Eg as -> ->. unfold meetsb, widen, caps, shift_box, vsub, regions, edges in *. cbn [combine map forallb length repeat].
  apply Exists_cons in He. destruct He as [[N1 N2]|He].
  - pose proof (link_apart _ _ _ _ _ _ Hl N1 N2) as X. cbv zeta in X. cbn [fst snd]. rewrite X. reflexivity.
  - rewrite IH by (reflexivity || exact He). apply andb_false_r.
Qed.

Lemma ht_link F chk (sh : shapes) f d s k gd gs ts us fls B S :
  links gd gs ts us fls B S -> k_locs k = repeat center (length gd) -> sh d = Some (k, gd) -> sh s = Some (k, gs) ->
  Exists (fun t => t <> RIN /\ t <> RALL) ts ->
  ht F (at_st sh f) (call chk (CopyTagFl d s ts us fls)) (fun _ => at_st sh (carry f d s B S)).
Proof.
  intros H Hk Hd Hs He. destruct (links_length _ _ _ _ _ _ _ H) as (L1 & L2 & L3 & L4 & L5 & L6).
  destruct (links_facts _ _ _ _ _ _ _ H) as (F1 & F2 & F3 & F4 & F5 & F6).
  pose proof (ht_copy F chk sh f d s k gd gs ts us fls Hd Hs) as T. cbv zeta in T. rewrite Hk in T.
  rewrite F3 in T. rewrite repeat_length in T. unfold cover, partner in T. rewrite F4 in T. unfold carry.
  apply T; try congruence; try assumption.
  unfold copy_error. rewrite F4 in F5 |- *. rewrite F5. cbn [negb]. destruct (Nat.eqb_spec d s) as [<-|_]; [|reflexivity].
  rewrite Hd in Hs. injection Hs as <-. pose proof (links_apart _ _ _ _ _ _ H He) as X. cbv zeta in X. rewrite F4 in X. rewrite X. reflexivity.
Qed.

End Links.
