(** Properties C15 - C20: allocation, memory exhaustion, clear, realloc,
    ownership, and the 32 bit limit.

    Reading guide: see P_Access.v.  [step true w c] is one call in checked mode:
    [Some (w', r)] is the new world and the result ([RDone], [RExn e]), [None] is
    undefined behaviour.  [shape_arg k gs]: one (ghost, interior, ghost) triple
    per dimension, sums within int, element count within 32 bits.  [bad_dim]: the
    first dimension with ghost points but no interior.  [vol (slot_box gs ls)]:
    number of storage slots.  [owned o]: the heap blocks the object deletes in
    its destructor; [block m b]: the contents of block [b], [None] once freed. *)

From Coq Require Import ZArith List Bool Lia.
From Verif Require Import Base M_Flags M_Loop M_RS1 M_RS2 M_RS3 M_Heap M_PD1 M_PD2 M_PD3 M_World
  Spec Spec_Loop Spec_Array Spec_Hist Spec_Reach L_Base L_World L_Access L_Life L_Wrap P_Access.
Import ListNotations.
Open Scope Z_scope.

Section Life.
Context {V : Type}.
Implicit Types (w : world V) (aw : aworld V) (h : list (op V)).

(** ** C15: alloc *)
Theorem C15_alloc_occupied F h w aw a k o gs :
  after F h w aw -> find w a = Some (k, o) -> o_data o <> Null -> shape_arg k gs ->
  step true w (Alloc a gs) = Some (w, RExn EAllocNotEmpty).
Proof. exact (@alloc_occupied V F h w aw a k o gs). Qed.

Theorem C15_alloc_rejects F h w aw a k o gs d :
  after F h w aw -> find w a = Some (k, o) -> o_data o = Null -> shape_arg k gs -> bad_dim 0 gs = Some d ->
  exists w', step true w (Alloc a gs) = Some (w', RExn (EInZero d)) /\ objs w' = objs w /\
             forall b, block (heap w') b = block (heap w) b.
Proof. exact (@alloc_rejects V F h w aw a k o gs d). Qed.

Theorem C15_alloc_nothing F h w aw a k o gs :
  after F h w aw -> find w a = Some (k, o) -> o_data o = Null -> shape_arg k gs -> bad_dim 0 gs = None ->
  vol (slot_box gs (k_locs k)) = 0 ->
  exists w', step true w (Alloc a gs) = Some (w', RDone) /\ objs w' = objs w /\
             forall b, block (heap w') b = block (heap w) b.
Proof. exact (@alloc_nothing V F h w aw a k o gs). Qed.

Theorem C15_alloc_succeeds F h w aw a k o gs :
  after F h w aw -> find w a = Some (k, o) -> o_data o = Null -> shape_arg k gs -> bad_dim 0 gs = None ->
  vol (slot_box gs (k_locs k)) <> 0 -> memory_for F w (length (k_locs k)) ->
  exists w' o', step true w (Alloc a gs) = Some (w', RDone) /\
    find w' a = Some (k, o') /\ m_size o' = gs /\ o_data o' <> Null /\
    (forall n q fl, accepts k gs n q fl ->
       exists p, m_at true k (heap w') o' n q fl = Ok p /\ fetch (heap w') p = Ok None) /\
    (forall a', a' <> a -> find w' a' = find w a') /\
    (forall b cs, block (heap w) b = Some cs -> block (heap w') b = Some cs).
Proof. exact (@alloc_succeeds V F h w aw a k o gs). Qed.

(** ** C16: memory exhaustion *)

(** The first request fails (1D has only one): no change. *)
Theorem C16_first_request_fails F h w aw a k o gs :
  after F h w aw -> find w a = Some (k, o) -> o_data o = Null -> shape_arg k gs -> bad_dim 0 gs = None ->
  vol (slot_box gs (k_locs k)) <> 0 -> F (tick (heap w)) = true ->
  exists w', step true w (Alloc a gs) = Some (w', RExn ENoMem) /\ objs w' = objs w /\
             forall b, block (heap w') b = block (heap w) b.
Proof. exact (@alloc_no_memory V F h w aw a k o gs). Qed.

(** 2D and 3D, a later request fails: the array claims data and the new size. *)
Theorem C16_later_request_fails F h w aw a k o gs j :
  after F h w aw -> find w a = Some (k, o) -> o_data o = Null -> shape_arg k gs -> bad_dim 0 gs = None ->
  vol (slot_box gs (k_locs k)) <> 0 ->
  (0 < j < length (k_locs k))%nat -> (forall i, (i < j)%nat -> F (tick (heap w) + i)%nat = false) ->
  F (tick (heap w) + j)%nat = true ->
  exists w' o', step true w (Alloc a gs) = Some (w', RExn ENoMem) /\ find w' a = Some (k, o') /\
    o_data o' <> Null /\ m_size o' = gs /\ length (owned o') = j /\
    (forall b, In b (owned o') -> block (heap w') b <> None).
Proof. exact (@alloc_late_failure V F h w aw a k o gs j). Qed.

(** ** C17: clear *)
Theorem C17_clear_frees F h w aw a k o :
  after F h w aw -> find w a = Some (k, o) -> o_data o <> Null ->
  exists w' o', step true w (Clear a) = Some (w', RDone) /\
    find w' a = Some (k, o') /\ m_size o' = map (fun _ => (0, 0, 0)) (k_locs k) /\ o_data o' = Null /\ owned o' = [] /\
    (forall a', a' <> a -> find w' a' = find w a') /\
    (forall b, In b (owned o) -> block (heap w) b <> None /\ block (heap w') b = None) /\
    (forall b, ~ In b (owned o) -> block (heap w') b = block (heap w) b).
Proof. exact (@clear_frees V F h w aw a k o). Qed.

Theorem C17_clear_on_empty F h w aw a k o :
  after F h w aw -> find w a = Some (k, o) -> o_data o = Null ->
  step true w (Clear a) = Some (w, RExn EClearEmpty).
Proof. exact (@clear_on_empty V F h w aw a k o). Qed.

(** Afterwards every access throws ([o_data o = Null], as left by clear), and
    [C15_alloc_succeeds] applies again. *)
Theorem C17_empty_refuses F h w aw a k o n q fl :
  after F h w aw -> find w a = Some (k, o) -> o_data o = Null ->
  length q = length (k_locs k) -> length fl = length (k_locs k) ->
  m_at true k (heap w) o n q fl = Err ENoData.
Proof. exact (@empty_refuses V F h w aw a k o n q fl). Qed.

(** ** C18: realloc *)
Theorem C18_realloc_refused F h w aw a k o gs :
  after F h w aw -> find w a = Some (k, o) -> shape_arg k gs ->
  (forall d, bad_dim 0 gs = Some d -> step true w (Realloc a gs) = Some (w, RExn (EInZero d))) /\
  (bad_dim 0 gs = None -> o_data o = Null -> step true w (Realloc a gs) = Some (w, RExn EClearEmpty)).
Proof. exact (@realloc_refused V F h w aw a k o gs). Qed.

Theorem C18_realloc_succeeds F h w aw a k o gs :
  after F h w aw -> find w a = Some (k, o) -> o_data o <> Null -> shape_arg k gs -> bad_dim 0 gs = None ->
  vol (slot_box gs (k_locs k)) <> 0 -> memory_for F w (length (k_locs k)) ->
  exists w' o', step true w (Realloc a gs) = Some (w', RDone) /\
    find w' a = Some (k, o') /\ m_size o' = gs /\ o_data o' <> Null /\
    (forall n q fl, accepts k gs n q fl ->
       exists p, m_at true k (heap w') o' n q fl = Ok p /\ fetch (heap w') p = Ok None) /\
    (forall a', a' <> a -> find w' a' = find w a') /\
    (forall b, In b (owned o) -> block (heap w') b = None) /\
    (forall b cs, ~ In b (owned o) -> block (heap w) b = Some cs -> block (heap w') b = Some cs).
Proof. exact (@realloc_succeeds V F h w aw a k o gs). Qed.

Theorem C18_realloc_loses F h w aw a k o gs :
  after F h w aw -> find w a = Some (k, o) -> o_data o <> Null -> shape_arg k gs -> bad_dim 0 gs = None ->
  vol (slot_box gs (k_locs k)) = 0 \/ F (tick (heap w)) = true ->
  exists w' o' r, step true w (Realloc a gs) = Some (w', r) /\
    r = (if vol (slot_box gs (k_locs k)) =? 0 then RDone else RExn ENoMem) /\
    find w' a = Some (k, o') /\ m_size o' = map (fun _ => (0, 0, 0)) (k_locs k) /\ o_data o' = Null /\
    (forall a', a' <> a -> find w' a' = find w a') /\
    (forall b, In b (owned o) -> block (heap w') b = None) /\
    (forall b, ~ In b (owned o) -> block (heap w') b = block (heap w) b).
Proof. exact (@realloc_loses V F h w aw a k o gs). Qed.

(** ** C19: ownership *)

(** Live blocks are those owned by the arrays, each by one array and through one
    pointer, and [a_leak aw] lost ones. *)
Theorem C19_ownership F h w aw :
  after F h w aw ->
  NoDup (all_owned w) /\
  (forall b, In b (all_owned w) -> block (heap w) b <> None) /\
  exists lost, NoDup lost /\ length lost = a_leak aw /\
    forall b, block (heap w) b <> None <-> In b (all_owned w) \/ In b lost.
Proof. exact (@ownership V F h w aw). Qed.

(** Nothing is lost unless a sized constructor of a 2D or 3D array runs out of memory. *)
Theorem C19_no_leak F h w aw : after F h w aw -> (forall c, In c h -> may_leak c = false) \/ (forall t, F t = false) -> a_leak aw = O.
Proof. exact (@no_leak V F h w aw). Qed.

Theorem C19_all_destroyed F h w aw : after F h w aw -> a_leak aw = O -> (forall a, find w a = None) -> forall b, block (heap w) b = None.
Proof. exact (@all_destroyed V F h w aw). Qed.

(** ** C20: the 32 bit limit *)

(** 2D and 3D: a slot count that is a multiple of 2^32 counts as none. *)
Theorem C20_wrapped_count_is_empty F (h : list (op V)) w aw a k o gs :
  after F h w aw -> find w a = Some (k, o) -> o_data o = Null ->
  length gs = length (k_locs k) -> (2 <= length gs)%nat -> Forall shape_ok gs -> bad_dim 0 gs = None ->
  zprod (map (fun '(g, l) => extent g l) (combine gs (k_locs k))) mod UINT_MOD = 0 ->
  step true w (Alloc a gs) = Some (w, RDone).
Proof. exact (@wrapped_count_is_empty V F h w aw a k o gs). Qed.

(** 1D: if the last component is the one that crosses 2^32, alloc computes
    pointers outside the storage. *)
Theorem C20_wrapped_count_1D F (h : list (op V)) w aw a N l0 o g :
  after F h w aw -> find w a = Some (K1 N l0, o) -> o_data o = Null ->
  shape_ok g -> bad_dim 0 [g] = None -> (N - 1) * extent g l0 < UINT_MOD <= N * extent g l0 ->
  memory_for F w 1 ->
  step true w (Alloc a [g]) = None.
Proof. exact (@wrapped_count_1D V F h w aw a N l0 o g). Qed.

End Life.
Print Assumptions C15_alloc_occupied.
Print Assumptions C15_alloc_rejects.
Print Assumptions C15_alloc_nothing.
Print Assumptions C15_alloc_succeeds.
Print Assumptions C16_first_request_fails.
Print Assumptions C16_later_request_fails.
Print Assumptions C17_clear_frees.
Print Assumptions C17_clear_on_empty.
Print Assumptions C17_empty_refuses.
Print Assumptions C18_realloc_refused.
Print Assumptions C18_realloc_succeeds.
Print Assumptions C18_realloc_loses.
Print Assumptions C19_ownership.
Print Assumptions C19_no_leak.
Print Assumptions C19_all_destroyed.
Print Assumptions C20_wrapped_count_is_empty.
Print Assumptions C20_wrapped_count_1D.

(** ** C16: what the half made arrays do *)

(** The second request for memory fails: afterwards a legal coordinate of the
    array is undefined behaviour in checked mode. *)
Theorem C16_access_after_late_failure_undefined :
  exists (F : nat -> bool) (h : list (op Z)) w aw k o n q fl,
    after F h w aw /\ find w 0 = Some (k, o) /\ o_data o <> Null /\ accepts k (m_size o) n q fl /\
    m_at true k (heap w) o n q fl = UB.
Proof.
  set (F := fun t => Nat.eqb t 1). set (h := [New (K2 1 center center); Alloc 0 [(0, 1, 0); (0, 1, 0)]] : list (op Z)).
  exists F, h. do 2 eexists. exists (K2 1 center center). eexists. exists 0, [0; 0], [FC; FC].
  split; [split; [|split; [reflexivity|eexists; vm_compute; reflexivity]]|].
  - legal_tac.
  - split; [vm_compute; reflexivity|]. split; [discriminate|]. split; [|vm_compute; reflexivity].
    unfold accepts, dims_ok, dim_ok. cbn. lia.
Qed.
Print Assumptions C16_access_after_late_failure_undefined.

(** The same after a clear: the access follows a pointer into freed storage. *)
Example C16_dangling :
  exists w,
    exec true (@start Z (fun t => Nat.eqb t 3))
      [New (K2 1 center center); Alloc 0 [(0, 1, 0); (0, 1, 0)]; Clear 0; Alloc 0 [(0, 1, 0); (0, 1, 0)]] =
      Some (w, [RDone; RDone; RDone; RExn ENoMem]) /\
    step true w (Read 0 0 [0; 0] [FC; FC]) = None.
Proof. eexists. split; [vm_compute; reflexivity|]. vm_compute. reflexivity. Qed.

(** A sized constructor that fails this way loses the storage for ever. *)
Theorem C16_sized_constructor_leaks :
  exists (F : nat -> bool) (h : list (op Z)) w aw b,
    after F h w aw /\ (forall a, find w a = None) /\ block (heap w) b <> None.
Proof.
  set (F := fun t => Nat.eqb t 1). set (h := [NewSized (K2 1 center center) [(0, 1, 0); (0, 1, 0)]] : list (op Z)).
  exists F, h. do 2 eexists. exists O.
  split; [split; [|split; [reflexivity|eexists; vm_compute; reflexivity]]|].
  - legal_tac.
  - split; [intros [|a]; [reflexivity|destruct a; reflexivity]|discriminate].
Qed.
Print Assumptions C16_sized_constructor_leaks.

(** ** Examples *)

(** An empty array beside the three of [ex_h]. *)
Definition ex_h4 := ex_h ++ [New (K2 2 half center)].
Definition ex_w4 : world Z := match exec true (start nofail) ex_h4 with Some (w, _) => w | None => start nofail end.
Definition ex_aw4 : aworld Z := fst (aexec nofail a_start ex_h4).
Definition ex_o4 (a : nat) : obj := match find ex_w4 a with Some (_, o) => o | None => ex_o 0 end.

Example ex4_after : after nofail ex_h4 ex_w4 ex_aw4.
Proof. split; [legal_tac|]. split; [reflexivity|]. eexists. vm_compute. reflexivity. Qed.

Ltac shape_tac := split; [reflexivity|]; split; [repeat (apply Forall_cons || apply Forall_nil); unfold shape_ok; lia|reflexivity].

Example C15_example :
  find ex_w4 3 = Some (K2 2 half center, ex_o4 3) /\ o_data (ex_o4 3) = Null /\ o_data (ex_o4 0) <> Null /\
  shape_arg (K2 2 half center) [(1, 2, 0); (0, 3, 1)] /\ bad_dim 0 [(1, 2, 0); (0, 3, 1)] = None /\
  bad_dim 0 [(1, 2, 0); (0, 0, 1)] = Some 1 /\ vol (slot_box [(1, 2, 0); (0, 3, 1)] [half; center]) = 16 /\
  vol (slot_box [(1, 2, 0); (0, 0, 0)] [half; center]) = 0 /\ memory_for nofail ex_w4 2.
Proof.
  split; [vm_compute; reflexivity|]. split; [vm_compute; reflexivity|]. split; [vm_compute; discriminate|].
  split; [shape_tac|]. do 4 (split; [reflexivity|]). intros t _. reflexivity.
Qed.

(** The hypotheses of C16: the request numbered 4 of ex_h4 is the next one. *)
Example C16_example : tick (heap ex_w4) = 6%nat /\ after (fun t => Nat.eqb t 7) ex_h4
  (match exec true (start (fun t => Nat.eqb t 7)) ex_h4 with Some (w, _) => w | None => start (fun _ => true) end)
  (fst (aexec (fun t => Nat.eqb t 7) a_start ex_h4)).
Proof. split; [reflexivity|]. split; [legal_tac|]. split; [reflexivity|]. eexists. vm_compute. reflexivity. Qed.

Example C17_example : owned (ex_o 0) = [0%nat; 1%nat] /\ owned (ex_o 2) = [3%nat; 4%nat; 5%nat] /\ o_data (ex_o 2) <> Null.
Proof. repeat split; try (vm_compute; reflexivity). vm_compute. discriminate. Qed.

Example C18_example :
  o_data (ex_o4 0) <> Null /\ shape_arg k0 [(0, 5, 0); (2, 1, 0)] /\ bad_dim 0 [(0, 5, 0); (2, 1, 0)] = None /\
  vol (slot_box [(0, 5, 0); (2, 1, 0)] (k_locs k0)) = 20 /\ memory_for nofail ex_w4 2.
Proof. split; [vm_compute; discriminate|]. split; [shape_tac|]. do 2 (split; [reflexivity|]). intros t _. reflexivity. Qed.

Example C19_example : all_owned ex_w = [0; 1; 2; 3; 4; 5]%nat /\ a_leak ex_aw = O /\
  exists w rs, exec true ex_w [Destroy 0; Destroy 2; Destroy 1] = Some (w, rs) /\ forall b, block (heap w) b = None.
Proof.
  split; [vm_compute; reflexivity|]. split; [reflexivity|].
  do 2 eexists. split; [vm_compute; reflexivity|]. intros b. do 6 (destruct b as [|b]; [reflexivity|]). destruct b; reflexivity.
Qed.

Example C20_example :
  Forall shape_ok [(0, 65535, 0); (0, 65536, 0)] /\ bad_dim 0 [(0, 65535, 0); (0, 65536, 0)] = None /\
  zprod (map (fun '(g, l) => extent g l) (combine [(0, 65535, 0); (0, 65536, 0)] [half; center])) mod UINT_MOD = 0 /\
  find ex_w4 3 = Some (K2 2 half center, ex_o4 3) /\ o_data (ex_o4 3) = Null /\
  step true ex_w4 (Alloc 3 [(0, 65535, 0); (0, 65536, 0)]) = Some (ex_w4, RDone).
Proof.
  split; [repeat (apply Forall_cons || apply Forall_nil); unfold shape_ok; lia|].
  do 4 (split; [vm_compute; reflexivity|]). vm_compute. reflexivity.
Qed.

(** 2^30 cells, four components. *)
Example C20_example_1D :
  shape_ok (0, 1073741824, 0) /\ (4 - 1) * extent (0, 1073741824, 0) center < UINT_MOD <= 4 * extent (0, 1073741824, 0) center /\
  exec true (@start Z nofail) [New (K1 4 center); Alloc 0 [(0, 1073741824, 0)]] = None.
Proof. split; [unfold shape_ok; lia|]. split; [cbn; lia|]. vm_compute. reflexivity. Qed.
