(** Properties C09 - C13: element access, layout, histories.

    Reading guide.  A state is reached by a program [h] (a list of calls, M_World.v)
    run in checked mode from the empty world ([exec true (start F) h]); [F] says
    which requests for memory fail.  [after F h w aw] (Spec_Reach.v): the program
    is one a client may write ([legal_run]: sizes within int, element counts
    within 32 bits, explicit copy ranges inside the arrays) and leads to world
    [w].  [find w a] is array number [a]: its class [k] and its object [o].
    [m_at chk k m o n q fl] is the operator(): component [n], indices [q], flags
    [fl]; [Ok p] is a reference to the storage cell [p], [Err e] an exception,
    [UB] undefined behaviour.  [healthy] excludes the arrays of C16, left half
    made when memory runs out; [C09_healthy] says where these cannot occur. *)

From Coq Require Import ZArith List Bool Lia.
From Verif Require Import Base M_Flags M_Loop M_RS1 M_RS2 M_RS3 M_Heap M_PD1 M_PD2 M_PD3 M_World
  Spec Spec_Loop Spec_Array Spec_Hist Spec_Reach L_Base L_World L_Access L_Life.
Import ListNotations.
Open Scope Z_scope.

Section Access.
Context {V : Type}.
Implicit Types (w : world V) (aw : aworld V) (h : list (op V)).

(** ** C09: checked access *)

(** Every access gives a reference into the storage of the array or the first
    failing check in the documented order; it is never undefined. *)
Theorem C09_access_total F h w aw a k o n q fl :
  after F h w aw -> healthy aw a -> find w a = Some (k, o) ->
  in_uint n -> length q = length (k_locs k) -> length fl = length (k_locs k) -> Forall in_int q ->
  match access_answer k o n q fl with
  | Some e => m_at true k (heap w) o n q fl = Err e
  | None => exists b off cs, m_at true k (heap w) o n q fl = Ok (Ptr b off) /\ o_data o = Ptr b 0 /\
              block (heap w) b = Some cs /\ 0 <= off < Z.of_nat (length cs)
  end.
Proof. exact (@access_total V F h w aw a k o n q fl). Qed.

(** A reference exactly for the legal coordinates ([accepts]: component below N,
    flags fitting, indices in range). *)
Theorem C09_access_iff F h w aw a k o n q fl :
  after F h w aw -> healthy aw a -> find w a = Some (k, o) ->
  in_uint n -> length q = length (k_locs k) -> length fl = length (k_locs k) -> Forall in_int q ->
  ((exists p, m_at true k (heap w) o n q fl = Ok p) <-> o_data o <> Null /\ accepts k (m_size o) n q fl).
Proof. exact (@access_iff V F h w aw a k o n q fl). Qed.

Theorem C09_healthy F h w aw a k o : after F h w aw -> find w a = Some (k, o) -> (exists N l, k = K1 N l) \/ (forall t, F t = false) -> healthy aw a.
Proof. exact (@healthy_always V F h w aw a k o). Qed.

(** ** C10: faces *)
Theorem C10_face_alias F h w aw a k o n q1 x q2 fl1 fl2 p :
  after F h w aw -> healthy aw a -> find w a = Some (k, o) -> length q1 = length fl1 ->
  in_uint n -> Forall in_int (q1 ++ x :: q2) -> 
  length (q1 ++ x :: q2) = length (k_locs k) -> length (fl1 ++ FP :: fl2) = length (k_locs k) ->
  in_int (x + 1) ->
  (m_at true k (heap w) o n (q1 ++ (x + 1) :: q2) (fl1 ++ FN :: fl2) = Ok p <->
   m_at true k (heap w) o n (q1 ++ x :: q2) (fl1 ++ FP :: fl2) = Ok p).
Proof. exact (@face_alias V F h w aw a k o n q1 x q2 fl1 fl2 p). Qed.

(** ** C11: bijection onto the storage *)

(** Two legal coordinates share storage exactly if they are the same component
    and the same slot ([slot_of]: index plus one for flag P). *)
Theorem C11_no_alias F h w aw a k o n q fl n' q' fl' :
  after F h w aw -> healthy aw a -> find w a = Some (k, o) -> o_data o <> Null ->
  accepts k (m_size o) n q fl -> accepts k (m_size o) n' q' fl' ->
  (m_at true k (heap w) o n q fl = m_at true k (heap w) o n' q' fl' <-> n = n' /\ slot_of q fl = slot_of q' fl').
Proof. exact (@access_injective V F h w aw a k o n q fl n' q' fl'). Qed.

Theorem C11_no_waste F h w aw a k o b cs off :
  after F h w aw -> healthy aw a -> find w a = Some (k, o) -> o_data o = Ptr b 0 ->
  block (heap w) b = Some cs -> 0 <= off < Z.of_nat (length cs) ->
  exists n q fl, accepts k (m_size o) n q fl /\ m_at true k (heap w) o n q fl = Ok (Ptr b off).
Proof. exact (@access_surjective V F h w aw a k o b cs off). Qed.

Theorem C11_buffer_size F h w aw a k o b :
  after F h w aw -> healthy aw a -> find w a = Some (k, o) -> o_data o = Ptr b 0 ->
  exists cs, block (heap w) b = Some cs /\
    Z.of_nat (length cs) = k_N k * zprod (map (fun '(g, l) => extent g l) (combine (m_size o) (k_locs k))).
Proof. exact (@buffer_exact V F h w aw a k o b). Qed.

(** ** C12: layout *)
Theorem C12_layout_1D F h w aw a N l0 o g0 b :
  after F h w aw -> healthy aw a -> find w a = Some (K1 N l0, o) -> m_size o = [g0] -> o_data o = Ptr b 0 ->
  (forall n, 0 <= n < N -> m_data_pt true (K1 N l0) (heap w) o n = Ok (Ptr b (n * extent g0 l0))) /\
  (forall n x f, accepts (K1 N l0) [g0] n [x] [f] ->
     m_at true (K1 N l0) (heap w) o n [x] [f] = Ok (Ptr b (n * extent g0 l0 + place g0 x f))).
Proof. exact (@layout1 V F h w aw a N l0 o g0 b). Qed.

Theorem C12_layout_2D F h w aw a N l0 l1 o g0 g1 b :
  after F h w aw -> healthy aw a -> find w a = Some (K2 N l0 l1, o) -> m_size o = [g0; g1] -> o_data o = Ptr b 0 ->
  (forall n, 0 <= n < N ->
     m_data_pt true (K2 N l0 l1) (heap w) o n = Ok (Ptr b (n * (extent g0 l0 * extent g1 l1)))) /\
  (forall n x y f g, accepts (K2 N l0 l1) [g0; g1] n [x; y] [f; g] ->
     m_at true (K2 N l0 l1) (heap w) o n [x; y] [f; g] =
     Ok (Ptr b (n * (extent g0 l0 * extent g1 l1) + (place g0 x f * extent g1 l1 + place g1 y g)))).
Proof. exact (@layout2 V F h w aw a N l0 l1 o g0 g1 b). Qed.

Theorem C12_layout_3D F h w aw a N l0 l1 l2 o g0 g1 g2 b :
  after F h w aw -> healthy aw a -> find w a = Some (K3 N l0 l1 l2, o) -> m_size o = [g0; g1; g2] -> o_data o = Ptr b 0 ->
  (forall n, 0 <= n < N ->
     m_data_pt true (K3 N l0 l1 l2) (heap w) o n = Ok (Ptr b (n * (extent g0 l0 * extent g1 l1 * extent g2 l2)))) /\
  (forall n x y z f g e, accepts (K3 N l0 l1 l2) [g0; g1; g2] n [x; y; z] [f; g; e] ->
     m_at true (K3 N l0 l1 l2) (heap w) o n [x; y; z] [f; g; e] =
     Ok (Ptr b (n * (extent g0 l0 * extent g1 l1 * extent g2 l2) +
                ((place g0 x f * extent g1 l1 + place g1 y g) * extent g2 l2 + place g2 z e)))).
Proof. exact (@layout3 V F h w aw a N l0 l1 l2 o g0 g1 g2 b). Qed.

(** ** C13: histories *)

(** Every legal program runs without undefined behaviour, and its results and
    exceptions are those of the abstract machine of Spec_Hist.v, in which an
    array is a map from coordinates to the last value stored. *)
Theorem C13_histories F h : legal_run F a_start h -> exists w, exec true (start F) h = Some (w, snd (aexec F a_start h)).
Proof. exact (@histories V F h). Qed.

(** In particular: what was written last to a coordinate is read back, whatever
    happened in between to other coordinates and other arrays. *)
Theorem C13_last_write F h1 h2 a k n q fl v q' fl' :
  legal_run F a_start (h1 ++ Write a n q fl v :: h2 ++ [Read a n q' fl']) ->
  snd (astep F (fst (aexec F a_start h1)) (Write a n q fl v)) = RDone ->
  (forall c, In c h2 -> disturbs c a n (slot_of q fl) = false) ->
  (forall x, afind (fst (aexec F a_start h1)) a = Some x -> fst x = k) ->
  flag_error 0 (k_locs k) fl' = None -> slot_of q' fl' = slot_of q fl ->
  exists w rs, exec true (start F) (h1 ++ Write a n q fl v :: h2 ++ [Read a n q' fl']) =
               Some (w, rs ++ [RVal (Some v)]).
Proof. exact (@last_write V F h1 h2 a k n q fl v q' fl'). Qed.

End Access.
Print Assumptions C09_access_total.
Print Assumptions C09_access_iff.
Print Assumptions C09_healthy.
Print Assumptions C10_face_alias.
Print Assumptions C11_no_alias.
Print Assumptions C11_no_waste.
Print Assumptions C11_buffer_size.
Print Assumptions C12_layout_1D.
Print Assumptions C12_layout_2D.
Print Assumptions C12_layout_3D.
Print Assumptions C13_histories.
Print Assumptions C13_last_write.

(** ** Examples *)

(** A program with three arrays of different dimension, ghost points and mixed locations. *)
Definition nofail : nat -> bool := fun _ => false.
Definition ex_h : list (op Z) :=
  [New (K2 2 center half); Alloc 0 [(1, 3, 1); (0, 2, 1)]; NewSized (K1 3 half) [(2, 4, 1)];
   Write 0 1 [-1; 2] [FC; FP] 7; New (K3 1 half center center); Alloc 2 [(0, 2, 0); (1, 1, 1); (0, 3, 2)];
   Write 2 0 [1; -1; 4] [FP; FC; FC] 9].
Definition ex_w : world Z := match exec true (start nofail) ex_h with Some (w, _) => w | None => start nofail end.
Definition ex_aw : aworld Z := fst (aexec nofail a_start ex_h).

Ltac legal_tac :=
  repeat split; cbn; unfold exists_arr, legal_access, shape_arg, kind_ok, in_uint, vol, zprod; cbn; repeat split;
  repeat (apply Forall_cons || apply Forall_nil); unfold shape_ok, in_int; cbn; try lia.

Example ex_legal : legal_run nofail a_start ex_h.
Proof. legal_tac. Qed.

Example ex_after : after nofail ex_h ex_w ex_aw.
Proof. split; [exact ex_legal|]. split; [reflexivity|]. eexists. vm_compute. reflexivity. Qed.

(** The object of array [a]. *)
Definition ex_o (a : nat) : obj := match find ex_w a with Some (_, o) => o | None => O1 (mkPD1 (mkSize1 0 0 0) Null []) end.
Definition k0 := K2 2 center half.
Definition k2 := K3 1 half center center.

Example ex_find : find ex_w 0 = Some (k0, ex_o 0) /\ find ex_w 1 = Some (K1 3 half, ex_o 1) /\ find ex_w 2 = Some (k2, ex_o 2).
Proof. repeat split; vm_compute; reflexivity. Qed.

Example ex_healthy a : healthy ex_aw a.
Proof.
  intros k gs nb. do 3 (destruct a as [|a]; [vm_compute; discriminate|]).
  unfold afind, ex_aw. cbn. destruct a; discriminate.
Qed.

(** Legal and illegal coordinates of the first array; the checks in order. *)
Example C09_example :
  accepts k0 (m_size (ex_o 0)) 1 [-1; 2] [FC; FP] /\
  (exists p, m_at true k0 (heap ex_w) (ex_o 0) 1 [-1; 2] [FC; FP] = Ok p) /\
  access_answer k0 (ex_o 0) 2 [9; 9] [FP; FC] = Some (EN 2 1) /\
  access_answer k0 (ex_o 0) 1 [9; 9] [FP; FC] = Some (EFlagCenter 0) /\
  access_answer k0 (ex_o 0) 1 [9; 9] [FC; FC] = Some (EFlagHalf 1) /\
  access_answer k0 (ex_o 0) 1 [9; 9] [FC; FN] = Some (range_error center 0 9 0 (-1, 4)) /\
  access_answer k0 (ex_o 0) 1 [3; 3] [FC; FP] = Some (range_error half 1 3 1 (0, 3)).
Proof.
  split; [|split; [eexists; vm_compute; reflexivity|repeat split]].
  change (m_size (ex_o 0)) with [(1, 3, 1); (0, 2, 1)]. unfold accepts, dims_ok, dim_ok. cbn. lia.
Qed.

(** Three cells in the second dimension, four faces. *)
Example C10_example :
  m_at true k0 (heap ex_w) (ex_o 0) 1 ([3] ++ (2 + 1) :: []) ([FC] ++ FN :: []) =
  m_at true k0 (heap ex_w) (ex_o 0) 1 ([3] ++ 2 :: []) ([FC] ++ FP :: []) /\
  map (fun x => m_at true k0 (heap ex_w) (ex_o 0) 0 [-1; x] [FC; FN]) [0; 1; 2; 3] =
  map (fun off => Ok (Ptr 0 off)) [0; 1; 2; 3].
Proof. split; vm_compute; reflexivity. Qed.

Example C11_example :
  o_data (ex_o 0) = Ptr 0 0 /\ option_map (@length (cell Z)) (block (heap ex_w) 0) = Some 40%nat /\
  accepts k0 (m_size (ex_o 0)) 1 [0; 1] [FC; FP] /\ accepts k0 (m_size (ex_o 0)) 1 [0; 1] [FC; FN] /\
  slot_of [0; 1] [FC; FP] <> slot_of [0; 1] [FC; FN].
Proof.
  change (m_size (ex_o 0)) with [(1, 3, 1); (0, 2, 1)]. unfold accepts, dims_ok, dim_ok.
  split; [vm_compute; reflexivity|]. split; [vm_compute; reflexivity|]. cbn. split; [lia|]. split; [lia|]. discriminate.
Qed.

Example C12_example :
  m_size (ex_o 2) = [(0, 2, 0); (1, 1, 1); (0, 3, 2)] /\ o_data (ex_o 2) = Ptr 3 0 /\
  accepts k2 (m_size (ex_o 2)) 0 [1; -1; 4] [FP; FC; FC] /\
  m_at true k2 (heap ex_w) (ex_o 2) 0 [1; -1; 4] [FP; FC; FC] = Ok (Ptr 3 ((2 * 3 + 0) * 5 + 4)).
Proof.
  split; [reflexivity|]. split; [vm_compute; reflexivity|]. split; [|vm_compute; reflexivity].
  change (m_size (ex_o 2)) with [(0, 2, 0); (1, 1, 1); (0, 3, 2)]. unfold accepts, dims_ok, dim_ok. cbn. lia.
Qed.

(** The written value is read back through the other name of the face, after
    calls on other arrays and coordinates. *)
Example C13_example :
  legal_run nofail a_start (ex_h ++ [Clear 1; Write 0 1 [-1; 2] [FC; FN] 8; Read 0 1 [-1; 3] [FC; FN]]) /\
  (forall c, In c (skipn 4 ex_h ++ [Clear 1; Write 0 1 [-1; 2] [FC; FN] 8]) ->
     disturbs c 0 1 (slot_of [-1; 2] [FC; FP]) = false) /\
  snd (aexec nofail a_start (ex_h ++ [Clear 1; Write 0 1 [-1; 2] [FC; FN] 8; Read 0 1 [-1; 3] [FC; FN]])) =
  [RDone; RDone; RDone; RDone; RDone; RDone; RDone; RDone; RDone; RVal (Some 7)].
Proof.
  split; [legal_tac|]. split; [|reflexivity].
  intros c H. cbn in H. repeat (destruct H as [<-|H]; [reflexivity|]). destruct H.
Qed.
