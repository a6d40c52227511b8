(** Properties C24 - C28: copies between arrays.

    Reading guide (see also P_Access.v).  The four overloads of copy_from are
    the calls [Copy] (ranges, anchor indices), [CopyTag] (region tags, anchor
    indices), [CopyFl] (ranges, boundary flags) and [CopyTagFl] (tags, flags).
    [copies c k d s od os R r A a] (Spec_Reach.v): call [c] copies from array
    number [s] (object [os]) into array number [d] (object [od]), both of class
    [k]; [R] and [r] are the boxes the ranges or tags stand for, [A] and [a] the
    anchors the indices or flags stand for.  [copy_box] are the slots
    {q in R, q - A + a in r}, with one more slot at the high end in half-located
    dimensions; [partner A a q] is q - A + a.  [copied ... w w' ...]: in [w'] the
    slots of [copy_box] read what their partners read in [w], every other slot
    of every array reads as in [w], and no object or block came or went.
    [copy_fits]: the sums and differences of the call fit int. *)

From Coq Require Import ZArith List Bool Lia.
From Verif Require Import Base M_Flags M_Loop M_RS1 M_RS2 M_RS3 M_Heap M_PD1 M_PD2 M_PD3 M_World
  Spec Spec_Loop Spec_Array Spec_Hist Spec_Reach L_Base L_World L_Access L_Life L_Copies P_Access.
Import ListNotations.
Open Scope Z_scope.

Section Copies.
Context {V : Type}.
Implicit Types (w : world V) (aw : aworld V) (h : list (op V)).

(** ** C24: effect of a copy *)

(** A call is refused without effect (no overlap, or the self-copy guard), or it
    copies exactly the aligned overlap.  The source may be the destination. *)
Theorem C24_copy_effect F h w aw c k d s od os R r A a :
  after F h w aw -> healthy aw d -> healthy aw s ->
  find w d = Some (k, od) -> find w s = Some (k, os) -> o_data od <> Null -> o_data os <> Null ->
  copies c k d s od os R r A a -> length R = length (k_locs k) -> copy_fits R r A a ->
  (copy_error (k_locs k) (Nat.eqb d s) R r A a = None -> copy_inside k od os R r A a) ->
  match copy_error (k_locs k) (Nat.eqb d s) R r A a with
  | Some e => step true w c = Some (w, RExn e)
  | None => exists w', step true w c = Some (w', RDone) /\ copied aw w w' k d od os R r A a
  end.
Proof. exact (@copy_effect V F h w aw c k d s od os R r A a). Qed.

(** ** C25: copies by region tags *)

(** With tags the zones need not be checked by the caller: the call throws
    without effect or copies within both arrays.  The last hypothesis excludes
    the case of [C25_copy_by_tags_unguarded_refuted]. *)
Theorem C25_copy_by_tags F h w aw c k d s od os R r A a :
  after F h w aw -> healthy aw d -> healthy aw s ->
  find w d = Some (k, od) -> find w s = Some (k, os) ->
  copies c k d s od os R r A a -> by_tags c -> copy_fits R r A a ->
  (o_data od <> Null <-> o_data os <> Null) \/ In center (k_locs k) ->
  match copy_error (k_locs k) (Nat.eqb d s) R r A a with
  | Some e => step true w c = Some (w, RExn e)
  | None => exists w', step true w c = Some (w', RDone) /\ copied aw w w' k d od os R r A a
  end.
Proof. exact (@tag_copy_safe V F h w aw c k d s od os R r A a). Qed.

(** ** C26: copies onto the same array *)

(** No slot read is a slot written. *)
Theorem C26_guard_sound F h w aw c k d od R r A a w' :
  after F h w aw -> find w d = Some (k, od) -> copies c k d d od od R r A a ->
  length R = length (k_locs k) -> copy_fits R r A a -> step true w c = Some (w', RDone) ->
  forall q q', in_box (copy_box (k_locs k) R r A a) q -> in_box (copy_box (k_locs k) R r A a) q' -> partner A a q <> q'.
Proof. exact (@self_guard V F h w aw c k d od R r A a w'). Qed.

(** ** C27: copies by explicit ranges *)

(** 1D: every accepted copy that leaves one of the arrays is undefined, also in
    checked mode.  (That copies inside the arrays are defined is C24.) *)
Theorem C27_outside_undefined_1D F h w aw c N l0 d s od os R r A a q :
  let k := K1 N l0 in
  after F h w aw -> find w d = Some (k, od) -> find w s = Some (k, os) -> o_data od <> Null -> o_data os <> Null ->
  copies c k d s od os R r A a -> length R = 1%nat -> copy_fits R r A a ->
  copy_error [l0] (Nat.eqb d s) R r A a = None ->
  in_box (copy_box [l0] R r A a) q ->
  ~ (in_box (slot_box (m_size od) [l0]) q /\ in_box (slot_box (m_size os) [l0]) (partner A a q)) ->
  step true w c = None.
Proof. exact (@copy_outside_1D V F h w aw c N l0 d s od os R r A a q). Qed.

(** ** C28: anchors given by flags *)

(** The slots copied sit at the named end of the destination range and are as
    many as the shorter range has; ends lie on ends. *)
Theorem C28_flags_align (c : op V) k d s od os R r A a :
  copies c k d s od os R r A a -> by_flags c ->
  length R = length (k_locs k) -> length r = length (k_locs k) ->
  copy_box (k_locs k) R r A a = aligned_box (k_locs k) R r (flags_of c) /\
  forall q, length q = length (k_locs k) -> partner A a q = aligned_partner R r (flags_of c) q.
Proof. exact (@flag_copies V c k d s od os R r A a). Qed.

End Copies.
Print Assumptions C24_copy_effect.
Print Assumptions C25_copy_by_tags.
Print Assumptions C26_guard_sound.
Print Assumptions C27_outside_undefined_1D.
Print Assumptions C28_flags_align.

(** ** The array copied onto itself: a snapshot *)

(** If the guard lets the call pass, every slot written reads what its partner
    read before the call, even where the array is source and destination. *)
Theorem C26_snapshot {V} F (h : list (op V)) w aw c k d od R r A a :
  after F h w aw -> healthy aw d -> find w d = Some (k, od) -> o_data od <> Null ->
  copies c k d d od od R r A a -> length R = length (k_locs k) -> copy_fits R r A a ->
  (copy_error (k_locs k) true R r A a = None -> copy_inside k od od R r A a) ->
  step true w c = Some (w, RExn EOverlapNotFound) \/ step true w c = Some (w, RExn ECopyOverlap) \/
  exists w', step true w c = Some (w', RDone) /\ copied aw w w' k d od od R r A a.
Proof.
  intros HA Hh Hd Dd Hc HL Hf Hi.
  pose proof (copy_effect F h w aw c k d d od od R r A a HA Hh Hh Hd Hd Dd Dd Hc HL Hf) as X.
  rewrite Nat.eqb_refl in X. specialize (X Hi). unfold copy_error in X.
  destruct (negb _); [now left|]. destruct (_ && _); [right; now left|]. right; now right.
Qed.
Print Assumptions C26_snapshot.

(** ** Witnesses and examples *)

Ltac fits_tac := vm_compute; repeat split; try discriminate; try (intros X; discriminate X).

(** A 1D half-located array with data, another one without. *)
Definition cp_h : list (op Z) :=
  [NewSized (K1 1 half) [(1, 4, 1)]; New (K1 1 half); NewSized (K1 1 center) [(0, 20, 0)]; Write 2 0 [5] [FC] 7;
   Write 2 0 [6] [FC] 8; NewSized (K2 2 center half) [(1, 3, 1); (0, 2, 1)]; NewSized (K2 2 center half) [(0, 4, 0); (1, 3, 0)];
   Write 4 1 [0; -1] [FC; FN] 3; Write 4 1 [1; 2] [FC; FP] 4].
Definition cp_w : world Z := match exec true (start nofail) cp_h with Some (w, _) => w | None => start nofail end.
Definition cp_aw : aworld Z := fst (aexec nofail a_start cp_h).
Definition cp_o (a : nat) : obj := match find cp_w a with Some (_, o) => o | None => O1 (mkPD1 (mkSize1 0 0 0) Null []) end.

Example cp_after : after nofail cp_h cp_w cp_aw.
Proof. split; [legal_tac|]. split; [reflexivity|]. eexists. vm_compute. reflexivity. Qed.

Example cp_healthy a : healthy cp_aw a.
Proof.
  intros k gs nb. do 5 (destruct a as [|a]; [vm_compute; discriminate|]).
  unfold afind, cp_aw. cbn. destruct a; discriminate.
Qed.

(** C25 fails if every dimension is half-located and just one of the arrays has
    no data: the range of the empty array, lying strictly inside that of the
    other, counts as overlap, and its extra face is read or written. *)
Theorem C25_copy_by_tags_unguarded_refuted :
  exists F (h : list (op Z)) w aw c k d s od os R r A a,
    after F h w aw /\ healthy aw d /\ healthy aw s /\ find w d = Some (k, od) /\ find w s = Some (k, os) /\
    copies c k d s od os R r A a /\ by_tags c /\ copy_fits R r A a /\ step true w c = None.
Proof.
  exists nofail, cp_h, cp_w, cp_aw, (CopyTag 0 1 [RALL] [RALL] [2] [0]), (K1 1 half), 0%nat, 1%nat, (cp_o 0), (cp_o 1),
    (regions (m_size (cp_o 0)) [RALL]), (regions (m_size (cp_o 1)) [RALL]), [2], [0].
  split; [exact cp_after|]. split; [apply cp_healthy|]. split; [apply cp_healthy|].
  split; [vm_compute; reflexivity|]. split; [vm_compute; reflexivity|]. split; [repeat split|]. split; [exact I|].
  split; [fits_tac|vm_compute; reflexivity].
Qed.
Print Assumptions C25_copy_by_tags_unguarded_refuted.

(** The guard is not complete: [0,20) <- [5,7) with 5 put on 10 would read
    [5,7) and write [10,12), and is refused. *)
Theorem C26_guard_incomplete :
  exists F (h : list (op Z)) w aw c k d od R r A a,
    after F h w aw /\ healthy aw d /\ find w d = Some (k, od) /\ copies c k d d od od R r A a /\ copy_fits R r A a /\
    copy_inside k od od R r A a /\
    (exists q, in_box (copy_box (k_locs k) R r A a) q) /\
    (forall q q', in_box (copy_box (k_locs k) R r A a) q -> in_box (copy_box (k_locs k) R r A a) q' -> partner A a q <> q') /\
    step true w c = Some (w, RExn ECopyOverlap).
Proof.
  exists nofail, cp_h, cp_w, cp_aw, (Copy 2 2 [(0, 20)] [(5, 2)] [10] [5]), (K1 1 center), 2%nat, (cp_o 2),
    [(0, 20)], [(5, 7)], [10], [5].
  split; [exact cp_after|]. split; [apply cp_healthy|]. split; [vm_compute; reflexivity|].
  split; [repeat split; repeat constructor; unfold in_int; lia|]. split; [fits_tac|].
  assert (X : forall q, in_box (copy_box (k_locs (K1 1 center)) [(0, 20)] [(5, 7)] [10] [5]) q -> exists x, q = [x] /\ 10 <= x < 12).
  { intros q Hq. change (copy_box (k_locs (K1 1 center)) [(0, 20)] [(5, 7)] [10] [5]) with [(10, 12)] in Hq.
    inversion Hq as [|? x ? ? Hx Hr]; subst. inversion Hr; subst. exists x. auto. }
  split; [|split; [|split]].
  - intros q Hq. destruct (X q Hq) as (x & -> & Hx).
    change (m_size (cp_o 2)) with [(0, 20, 0)]. unfold slot_box, partner, vsub. cbn.
    split; (constructor; [cbn; lia|constructor]).
  - exists [10]. constructor; [cbn; lia|constructor].
  - intros q q' Hq Hq'. destruct (X q Hq) as (x & -> & Hx). destruct (X q' Hq') as (y & -> & Hy).
    cbn. intros E. injection E as E. lia.
  - vm_compute. reflexivity.
Qed.
Print Assumptions C26_guard_incomplete.

(** An explicit range beyond the array is accepted, and undefined. *)
Theorem C27_unchecked_ranges :
  exists F (h : list (op Z)) w aw c k d s od os R r A a,
    after F h w aw /\ healthy aw d /\ healthy aw s /\ find w d = Some (k, od) /\ find w s = Some (k, os) /\
    o_data od <> Null /\ o_data os <> Null /\ d <> s /\
    copies c k d s od os R r A a /\ copy_fits R r A a /\ step true w c = None.
Proof.
  exists nofail, cp_h, cp_w, cp_aw, (Copy 3 4 [(0, 9); (0, 2)] [(0, 9); (0, 2)] [0; 0] [0; 0]), (K2 2 center half),
    3%nat, 4%nat, (cp_o 3), (cp_o 4), [(0, 9); (0, 2)], [(0, 9); (0, 2)], [0; 0], [0; 0].
  split; [exact cp_after|]. split; [apply cp_healthy|]. split; [apply cp_healthy|].
  split; [vm_compute; reflexivity|]. split; [vm_compute; reflexivity|].
  split; [vm_compute; discriminate|]. split; [vm_compute; discriminate|]. split; [discriminate|].
  split; [repeat split; repeat constructor; unfold in_int; lia|].
  split; [fits_tac|vm_compute; reflexivity].
Qed.
Print Assumptions C27_unchecked_ranges.

(** Arrays of different shapes, tags, flags: the whole of array 4 (4 x 4 faces)
    is put on the low end of array 3 in the first dimension and on the high end
    in the second. *)
Definition cp_c : op Z := CopyTagFl 3 4 [RALL; RALL] [RALL; RALL] [BN; BP].
Example C24_example :
  copies cp_c (K2 2 center half) 3 4 (cp_o 3) (cp_o 4)
    [(-1, 4); (0, 3)] [(0, 4); (-1, 3)] [-1; 2] [0; 2] /\
  copy_fits [(-1, 4); (0, 3)] [(0, 4); (-1, 3)] [-1; 2] [0; 2] /\
  copy_error [center; half] false [(-1, 4); (0, 3)] [(0, 4); (-1, 3)] [-1; 2] [0; 2] = None /\
  copy_box [center; half] [(-1, 4); (0, 3)] [(0, 4); (-1, 3)] [-1; 2] [0; 2] = [(-1, 3); (0, 4)] /\
  o_data (cp_o 3) <> Null /\ o_data (cp_o 4) <> Null /\
  exists w', step true cp_w cp_c = Some (w', RDone) /\
    m_at true (K2 2 center half) (heap w') (cp_o 3) 1 [0; 3] [FC; FN] = Ok (Ptr 2 27) /\
    fetch (heap w') (Ptr 2 27) = Ok (Some 4).
Proof.
  split; [repeat split|]. split; [fits_tac|]. split; [reflexivity|]. split; [reflexivity|].
  split; [vm_compute; discriminate|]. split; [vm_compute; discriminate|].
  eexists. split; [vm_compute; reflexivity|]. split; vm_compute; reflexivity.
Qed.

(** The hypotheses of C25 that C24 does not have. *)
Example C25_example :
  by_tags cp_c /\ In center (k_locs (K2 2 center half)) /\ (o_data (cp_o 3) <> Null <-> o_data (cp_o 4) <> Null).
Proof.
  split; [exact I|]. split; [now left|].
  split; intros _; vm_compute; discriminate.
Qed.

Example C26_example :
  copies (V := Z) (Copy 2 2 [(10, 4)] [(5, 2)] [10] [5]) (K1 1 center) 2 2 (cp_o 2) (cp_o 2) [(10, 14)] [(5, 7)] [10] [5] /\
  copy_fits [(10, 14)] [(5, 7)] [10] [5] /\
  exists w', step true cp_w (Copy 2 2 [(10, 4)] [(5, 2)] [10] [5]) = Some (w', RDone).
Proof.
  split; [repeat split; repeat constructor; unfold in_int; lia|]. split; [fits_tac|].
  eexists. vm_compute. reflexivity.
Qed.

(** Reading beyond the source and writing beyond the destination. *)
Example C27_example :
  copies (V := Z) (Copy 2 2 [(15, 7)] [(0, 2)] [20] [0]) (K1 1 center) 2 2 (cp_o 2) (cp_o 2) [(15, 22)] [(0, 2)] [20] [0] /\
  copy_fits [(15, 22)] [(0, 2)] [20] [0] /\ copy_error [center] true [(15, 22)] [(0, 2)] [20] [0] = None /\
  in_box (copy_box [center] [(15, 22)] [(0, 2)] [20] [0]) [20] /\
  ~ in_box (slot_box (m_size (cp_o 2)) [center]) [20].
Proof.
  split; [repeat split; repeat constructor; unfold in_int; lia|]. split; [fits_tac|]. split; [reflexivity|].
  split; [constructor; [cbn; lia|constructor]|].
  change (m_size (cp_o 2)) with [(0, 20, 0)]. intros H. inversion H; subst. cbn in *. lia.
Qed.

Example C28_example :
  aligned_box [center; half] [(-1, 4); (0, 3)] [(0, 4); (-1, 3)] [BN; BP] = [(-1, 3); (0, 4)] /\
  aligned_partner [(-1, 4); (0, 3)] [(0, 4); (-1, 3)] [BN; BP] [0; 3] = [1; 3] /\ by_flags cp_c.
Proof. split; [reflexivity|]. split; [reflexivity|exact I]. Qed.
