(** Properties C29 and C30: disp_data, 0D arrays.

    Reading guide (see also P_Access.v).  [m_disp chk k m o] is disp_data of the
    object [o] of class [k]; its state is the text written so far, a list of
    tokens: strings, integers, elements, ends of line.  [reads w k o n q x]
    (Spec_Reach.v): the operator() reads [x] at slot [q] of component [n]
    ([None]: never written).  [display val k B] is the text for values [val]
    over the slots [B]. *)

From Coq Require Import ZArith String List Bool Lia.
From Verif Require Import Base M_Flags M_Loop M_RS1 M_RS2 M_RS3 M_Heap M_PD0 M_PD1 M_PD2 M_PD3 M_World
  Spec Spec_Loop Spec_Array Spec_Hist Spec_Reach Spec_Zero
  L_Base L_World L_Access L_Life L_Copies L_Disp L_Zero P_Access.
Import ListNotations.
Open Scope Z_scope.
Open Scope list_scope.

Section Disp.
Context {V : Type}.
Implicit Types (w : world V) (aw : aworld V) (h : list (op V)).

(** ** C29: disp_data *)

(** All slots written: the text has the documented form. *)
Theorem C29_text F h w aw a k o val chk out :
  after F h w aw -> healthy aw a -> find w a = Some (k, o) -> o_data o <> Null ->
  (forall n q, 0 <= n < k_N k -> in_box (slot_box (m_size o) (k_locs k)) q -> reads w k o n q (Some (val n q))) ->
  m_disp chk k (heap w) o out = Ret (out ++ display val k (slot_box (m_size o) (k_locs k))) tt.
Proof. exact (@disp_text V F h w aw a k o val chk out). Qed.

(** Its elements: every slot of every component once, in storage order (1D:
    components innermost; 2D and 3D: components outermost, then row-major). *)
Theorem C29_each_once (val : Z -> list Z -> V) k B :
  length B = length (k_locs k) ->
  values (display val k B) =
  match k with
  | K1 N _ => flat_map (fun q => map (fun n => val n q) (zrange 0 N)) (points B)
  | _ => flat_map (fun n => map (val n) (points B)) (zrange 0 (k_N k))
  end.
Proof. exact (@display_values V val k B). Qed.

(** A slot never written makes the call undefined (an indeterminate value is
    printed). *)
Theorem C29_unwritten_undefined F h w aw a k o n q chk out :
  after F h w aw -> healthy aw a -> find w a = Some (k, o) -> reads w k o n q None ->
  m_disp chk k (heap w) o out = Undef.
Proof. exact (@disp_uninitialised V F h w aw a k o n q chk out). Qed.

(** An array without data prints no element, if a dimension is center-located. *)
Theorem C29_no_data F h w aw a k o val chk out :
  after F h w aw -> find w a = Some (k, o) -> o_data o = Null -> In center (k_locs k) ->
  m_disp chk k (heap w) o out = Ret (out ++ display val k (slot_box (m_size o) (k_locs k))) tt /\
  values (display val k (slot_box (m_size o) (k_locs k))) = [].
Proof. exact (@disp_no_data V F h w aw a k o val chk out). Qed.

End Disp.

Section Zero.
Context {V : Type}.
Implicit Types (o : pd0 (V := V)) (h : list (op0 V)).

(** ** C30: 0D arrays *)

(** The constructor throws exactly for [N = 0]. *)
Theorem C30_constructor (N : Z) : (exists o : pd0 (V := V), ctor0 N = Ok o) <-> N <> 0.
Proof. exact (@ctor0_iff V N). Qed.
Theorem C30_zero : ctor0 (V := V) 0 = Err ENZero.
Proof. exact (@ctor0_zero V). Qed.

(** Any program: each statement answers from the statements before it -- a
    component number not below N is an exception, a read gives the last value
    written to that component.  In checked mode for all component numbers,
    without the checks for those below N. *)
Theorem C30_histories chk N o h :
  0 <= N <= INT_MAX -> ctor0 N = Ok o -> Forall (fun c => 0 <= arg0 c /\ (chk = true \/ arg0 c < N)) h ->
  exists o' rs, exec0 N chk o h = Some (o', rs) /\ length rs = length h /\
    forall j c, nth_error h j = Some c -> nth_error rs j = Some (answer0 N (firstn j h) c).
Proof. exact (@histories0 V chk N o h). Qed.

(** Without the checks the other component numbers are undefined. *)
Theorem C30_unchecked_outside N o h o' rs c :
  0 <= N <= INT_MAX -> ctor0 N = Ok o -> Forall (fun c => 0 <= arg0 c) h ->
  exec0 N true o h = Some (o', rs) -> N <= arg0 c -> step0 N false o' c = None.
Proof. exact (@outside0 V N o h o' rs c). Qed.

(** disp_data lists the components in order. *)
Theorem C30_disp_data N o h val (o' : pd0) rs out :
  0 <= N <= INT_MAX -> ctor0 N = Ok o -> Forall (fun c => 0 <= arg0 c) h -> exec0 N true o h = Some (o', rs) ->
  (forall n, 0 <= n < N -> last_write0 h n = Some (val n)) ->
  disp_data0 N o' out = Ret (out ++ flat_map (fun n => [TVal (val n); TStr ", "]) (zrange 0 N)) tt.
Proof. exact (@disp0 V N o h val o' rs out). Qed.

End Zero.
Print Assumptions C29_text.
Print Assumptions C29_each_once.
Print Assumptions C29_unwritten_undefined.
Print Assumptions C29_no_data.
Print Assumptions C30_constructor.
Print Assumptions C30_zero.
Print Assumptions C30_histories.
Print Assumptions C30_unchecked_outside.
Print Assumptions C30_disp_data.

(** ** Witness and examples *)

(** The last hypothesis of [C29_no_data] is needed: there is no check for data,
    and the extra face of an array without data is read. *)
Theorem C29_no_data_half_refuted :
  exists F (h : list (op Z)) w aw k o, after F h w aw /\ healthy aw 0 /\ find w 0 = Some (k, o) /\ o_data o = Null /\
    forall chk, m_disp chk k (heap w) o [] = Undef.
Proof.
  exists nofail, [New (K1 1 half)], (match exec true (start nofail) [New (K1 1 half)] with Some (w, _) => w | None => start nofail end),
    (fst (aexec nofail a_start [New (K1 1 half)])).
  eexists _, _. split; [split; [legal_tac|]; split; [reflexivity|]; eexists; vm_compute; reflexivity|].
  split; [intros k gs nb; vm_compute; discriminate|]. split; [vm_compute; reflexivity|].
  split; [vm_compute; reflexivity|]. intros []; vm_compute; reflexivity.
Qed.
Print Assumptions C29_no_data_half_refuted.

(** A 2D array with one cell in front, faces in the second dimension. *)
Definition dp_h : list (op Z) :=
  [NewSized (K2 1 center half) [(1, 1, 0); (0, 1, 0)]; Write 0 0 [-1; 0] [FC; FN] 5; Write 0 0 [-1; 0] [FC; FP] 6;
   Write 0 0 [0; 0] [FC; FN] 7; Write 0 0 [0; 1] [FC; FN] 8; New (K2 3 half center)].
Definition dp_w : world Z := match exec true (start nofail) dp_h with Some (w, _) => w | None => start nofail end.
Definition dp_aw : aworld Z := fst (aexec nofail a_start dp_h).
Definition dp_o (a : nat) : obj := match find dp_w a with Some (_, o) => o | None => O1 (mkPD1 (mkSize1 0 0 0) Null []) end.
Definition dp_val (n : Z) (q : list Z) : Z := match q with [x; y] => 7 + 2 * x + y | _ => 0 end.

Example C29_example :
  after nofail dp_h dp_w dp_aw /\ find dp_w 0 = Some (K2 1 center half, dp_o 0) /\ o_data (dp_o 0) <> Null /\
  (forall n q, 0 <= n < 1 -> in_box [(-1, 1); (0, 2)] q -> reads dp_w (K2 1 center half) (dp_o 0) n q (Some (dp_val n q))) /\
  slot_box (m_size (dp_o 0)) [center; half] = [(-1, 1); (0, 2)] /\
  m_disp true (K2 1 center half) (heap dp_w) (dp_o 0) [] =
    Ret [TStr "N = "; TInt 0; TEndl; TVal 5; TStr ", "; TVal 6; TStr ", "; TEndl; TVal 7; TStr ", "; TVal 8; TStr ", "; TEndl; TEndl] tt /\
  o_data (dp_o 1) = Null /\ In center (k_locs (K2 3 half center)).
Proof.
  split; [split; [legal_tac|]; split; [reflexivity|]; eexists; vm_compute; reflexivity|].
  split; [vm_compute; reflexivity|]. split; [vm_compute; discriminate|]. split; [|split; [vm_compute; reflexivity|]].
  - intros n q Hn Hq. assert (n = 0) by lia. subst n.
    inversion Hq as [|? x ? ? Hx H1]; subst. inversion H1 as [|? y ? ? Hy H2]; subst. inversion H2; subst. cbn [fst snd] in Hx, Hy.
    exists [x; y], [FC; FN].
    assert (D : (x = -1 \/ x = 0) /\ (y = 0 \/ y = 1)) by lia.
    destruct D as [[-> | ->] [-> | ->]]; eexists; (split; [split; [cbn; lia|change (m_size (dp_o 0)) with [(1, 1, 0); (0, 1, 0)]; cbn; lia]|]);
    (split; [reflexivity|]); (split; [vm_compute; reflexivity|vm_compute; reflexivity]).
  - split; [vm_compute; reflexivity|]. split; [vm_compute; reflexivity|]. right. now left.
Qed.

Example C29_unwritten_example :
  reads ex_w (K1 3 half) (ex_o 1) 0 [0] None /\ m_disp (V := Z) true (K1 3 half) (heap ex_w) (ex_o 1) [] = Undef.
Proof.
  split; [|vm_compute; reflexivity]. exists [0], [FN]. eexists.
  split; [split; [cbn; lia|change (m_size (ex_o 1)) with [(2, 4, 1)]; cbn; lia]|].
  split; [reflexivity|]. split; vm_compute; reflexivity.
Qed.

Example C30_example :
  exists o o', ctor0 (V := Z) 3 = Ok o /\
  exec0 3 true o [Write0 1 5; Read0 1; Write0 1 6; Write0 0 9; Read0 1; Read0 2; Read0 3] =
    Some (o', [Stored; Got (Some 5); Stored; Stored; Got (Some 6); Got None; Threw (EN 3 2)]).
Proof. eexists _, _. split; reflexivity. Qed.
