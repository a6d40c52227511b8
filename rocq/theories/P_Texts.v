(** Property C56: the texts of the library tell what they are about.

    Reading guide (see also P_Access.v).  [what e] is what() of the exception [e]; [tells k o n q fl t] (Spec_Texts.v) says
    that [t] names the first thing wrong with an access, with the numbers that would have been accepted.  [rdisp], [sdisp],
    [pdisp], [pdisp0] are disp() of RangeT, SizeT, PointData and the 0D PointData; [ty] is typeid(_NUMT).name().  [render]
    gives the characters of the text of disp_data (C29) for [int] elements. *)

From Coq Require Import ZArith Ascii String List Bool Lia.
From Verif Require Import Base M_Flags M_RS1 M_RS2 M_RS3 M_Bytes M_TecZone M_TecFile M_Heap M_PD0 M_PD1 M_PD2 M_PD3 M_World
  Spec Spec_Loop Spec_Array Spec_Log Spec_Hist Spec_Reach M_Scan M_Texts Spec_Texts
  L_Base L_Text L_Scan L_World L_Access L_Kind L_Texts P_Access P_Disp.
Import ListNotations.
Open Scope string_scope.
Open Scope Z_scope.

(** ** Messages *)

(** A refused element access tells the first thing wrong with it, and what would have been accepted. *)
Theorem C56_message {V} F (h : list (op V)) w aw a k o n q fl e :
  after F h w aw -> healthy aw a -> find w a = Some (k, o) ->
  in_uint n -> length q = length (k_locs k) -> length fl = length (k_locs k) -> Forall in_int q ->
  m_at true k (heap w) o n q fl = Err e ->
  exists t, what e = Some t /\ tells k o n q fl t /\ numbers_ok e.
Proof. exact (@message V F h w aw a k o n q fl e). Qed.

(** Different exceptions have different messages. *)
Theorem C56_distinct e e' : numbers_ok e -> numbers_ok e' -> what e <> None -> what e = what e' -> e = e'.
Proof. exact (@what_inj e e'). Qed.

(** ** disp() *)

(** Ranges, whatever their dimension, can be told apart by their texts. *)
Theorem C56_range chk chk' r r' t :
  Forall ints2 (range_dims r) -> Forall ints2 (range_dims r') -> rdisp chk r = Ok t -> rdisp chk' r' = Ok t -> r = r'.
Proof. exact (@rdisp_inj chk chk' r r' t). Qed.

(** So can sizes. *)
Theorem C56_size s s' : Forall ints3 (size_dims s) -> Forall ints3 (size_dims s') -> sdisp s = sdisp s' -> s = s'.
Proof. exact (@sdisp_inj s s'). Qed.

(** The text of an array tells its class -- dimension, locations, number of components --, its element type and its sizes. *)
Theorem C56_array {V} F F' (h h' : list (op V)) w w' aw aw' a a' k k' o o' ty ty' :
  after F h w aw -> find w a = Some (k, o) -> after F' h' w' aw' -> find w' a' = Some (k', o') ->
  no_bracket ty -> no_bracket ty' -> pdisp ty k o = pdisp ty' k' o' -> k = k' /\ ty = ty' /\ m_size o = m_size o'.
Proof. exact (@array_text V F F' h h' w w' aw aw' a a' k k' o o' ty ty'). Qed.
Theorem C56_array_0D ty ty' N N' : no_bracket ty -> no_bracket ty' -> in_uint N -> in_uint N' ->
  pdisp0 ty N = pdisp0 ty' N' -> ty = ty' /\ N = N'.
Proof. exact (@pdisp0_inj ty ty' N N'). Qed.
Theorem C56_array_0D_other {V} F (h : list (op V)) w aw a k o ty ty' N :
  after F h w aw -> find w a = Some (k, o) -> pdisp0 ty N <> pdisp ty' k o.
Proof. intros HA Hf. destruct (after_find _ _ _ _ _ _ _ HA Hf) as (x & own & lk & _ & _ & Hr & _). apply pdisp0_other, (rep_class _ _ _ _ _ Hr). Qed.

(** ** disp_data() *)

(** Two [int] arrays of the same class and the same sizes for which disp_data gives the same characters have the same
    elements. *)
Theorem C56_data F F' (h h' : list (op Z)) w w' aw aw' a a' k o o' val val' chk chk' out out' :
  after F h w aw -> healthy aw a -> find w a = Some (k, o) -> o_data o <> Null ->
  after F' h' w' aw' -> healthy aw' a' -> find w' a' = Some (k, o') -> o_data o' <> Null ->
  m_size o = m_size o' ->
  (forall n q, 0 <= n < k_N k -> in_box (slot_box (m_size o) (k_locs k)) q ->
     reads w k o n q (Some (val n q)) /\ in_int (val n q) /\ reads w' k o' n q (Some (val' n q)) /\ in_int (val' n q)) ->
  m_disp chk k (heap w) o [] = Ret out tt -> m_disp chk' k (heap w') o' [] = Ret out' tt ->
  render out = render out' ->
  forall n q, 0 <= n < k_N k -> in_box (slot_box (m_size o) (k_locs k)) q -> val n q = val' n q.
Proof. exact (@data_text F F' h h' w w' aw aw' a a' k o o' val val' chk chk' out out'). Qed.

Print Assumptions C56_message.
Print Assumptions C56_distinct.
Print Assumptions C56_range.
Print Assumptions C56_size.
Print Assumptions C56_array.
Print Assumptions C56_array_0D.
Print Assumptions C56_array_0D_other.
Print Assumptions C56_data.

(** ** Examples *)

(** Messages for the arrays of [ex_h] (P_Access.v). *)
Example C56_message_example :
  after nofail ex_h ex_w (fst (aexec nofail a_start ex_h)) /\
  find ex_w 2 = Some (K3 1 half center center, ex_o 2) /\
  m_at true (K3 1 half center center) (heap ex_w) (ex_o 2) 0 [-2; 0; 0] [FP; FC; FC] = Err (ERangeH 0 (-2) 1 0 1 2) /\
  what (ERangeH 0 (-2) 1 0 1 2) = Some "i is out of range: -2(P) range:[-1(P),0,1,2(N)]" /\
  m_at true (K3 1 half center center) (heap ex_w) (ex_o 2) 0 [0; 0; 5] [FN; FC; FC] = Err (ERangeC 2 5 0 4) /\
  what (ERangeC 2 5 0 4) = Some "k is out of range: 5 range:[0,4]" /\
  m_at true (K3 1 half center center) (heap ex_w) (ex_o 2) 0 [0; 0; 0] [FN; FN; FC] = Err (EFlagCenter 1) /\
  what (EFlagCenter 1) = Some "dim[1]: flag must be [C] when location is [center]" /\
  m_at true (K3 1 half center center) (heap ex_w) (ex_o 2) 4294967295 [0; 0; 0] [FN; FC; FC] = Err (EN 4294967295 0) /\
  what (EN 4294967295 0) = Some "N is out of range: 4294967295 range:[0,0]".
Proof.
  split; [split; [legal_tac|]; split; [reflexivity|]; eexists; vm_compute; reflexivity|].
  repeat split; vm_compute; reflexivity.
Qed.

Example C56_disp_example :
  rdisp true (AR2 (mkRange2 (-1, 0) (3, 2))) = Ok "range[0] = [-1 , 1]  size[0] = 3    range[1] = [0 , 1]  size[1] = 2" /\
  Forall ints2 (range_dims (AR2 (mkRange2 (-1, 0) (3, 2)))) /\
  sdisp (AS1 (mkSize1 4 2 1)) = "size[0] = [2 4 1]" /\ Forall ints3 (size_dims (AS1 (mkSize1 4 2 1))) /\
  pdisp "d" (K2 2 center half) (ex_o 0) =
    "dimension:2  location:[center, half]  type:[d]  N = 2  size[0] = [1 3 1]  size[1] = [0 2 1]" /\
  no_bracket "d" /\ pdisp0 "i" 3 = "dimension:0  type:[i]  N = 3".
Proof.
  split; [reflexivity|]. split; [repeat constructor; cbn; lia|]. split; [reflexivity|].
  split; [repeat constructor; cbn; lia|]. split; [vm_compute; reflexivity|]. split; [cbn; split; [discriminate|exact I]|reflexivity].
Qed.

(** The text of the array of [dp_h] (P_Disp.v), whose hypotheses are those of [C29_example]. *)
Example C56_data_example :
  match m_disp true (K2 1 center half) (heap dp_w) (dp_o 0) [] with Ret out tt => render out | _ => "" end =
  "N = 0" ++ NL ++ "5, 6, " ++ NL ++ "7, 8, " ++ NL ++ NL.
Proof. vm_compute. reflexivity. Qed.
