(** Property C67: programs made of exec_except report what happened, and a call that throws counts as not made.

    Reading guide (see also P_Access.v).  [session true text items] (M_Except.v) is a program that makes one call of
    liton_sp::debug::exec_except after the other; an item is the time and the random number of its stamp, and the statements
    of the lambda.  [a_session] (Spec_Except.v) says which calls are made and which blocks end in an exception, [writes] which
    lines are on the two streams.  [kept h rs]: the calls [h] without those whose result in [rs] is an exception, and the
    results of the others; calls of constructors stay because they take a number. *)

From Coq Require Import ZArith Ascii String List Bool Lia.
From Verif Require Import Base M_Flags M_Bytes M_TecZone M_TecFile M_Scan M_Heap M_World M_Client M_Texts M_Except
  Spec Spec_Loop Spec_Array Spec_Log Spec_Hist Spec_Reach Spec_Texts Spec_Except L_World L_Access L_Except P_Access P_Life.
Import ListNotations.
Open Scope string_scope.
Open Scope Z_scope.

(** A program of calls of exec_except comes to its end whatever its blocks throw.  The calls made are those of each block up
    to the first one that throws; for each block there is one line on the first stream, and one on the second exactly if it
    threw, with the same stamp and the message. *)
Theorem C67_session {V} F (items : list (string * Z * list (stmt V))) text :
  legal_session F a_start (map snd items) -> Forall (fun '(_, z, _) => 0 <= z < 2147483648) items ->
  let '(aw, h, rs) := a_session F a_start (map snd items) in
  exists w o e, session true text items (Desk (start F) "" "") = Ret (Desk w o e) tt /\ after F h w aw /\ writes text (map fst items) rs o e.
Proof. exact (@session_ok V F items text). Qed.

(** What is thrown and is no std::exception leaves exec_except as it is, and no line is written. *)
Theorem C67_other {T} text time rnd (exp : M (desk T) unit) d d' n :
  exp d = Thr d' (EUser n) -> exec_except text time rnd exp d = Thr d' (EUser n).
Proof. intros E. unfold exec_except. rewrite E. reflexivity. Qed.

(** A call that throws anything but std::bad_alloc, and is no constructor, leaves everything a caller can look at as it was. *)
Theorem C67_strong {V} F (h : list (op V)) w aw c w' e c2 :
  after F h w aw -> legal aw c -> step true w c = Some (w', RExn e) -> e <> ENoMem -> creates c = false ->
  legal aw c2 -> looks c2 = true ->
  exists w1 w2 r, step true w c2 = Some (w1, r) /\ step true w' c2 = Some (w2, r).
Proof. exact (@thrown_same V F h w aw c w' e c2). Qed.

(** When memory does not run out, the calls that threw may be struck from a program: the others have the same results, and
    so has everything that comes after. *)
Theorem C67_rollback {V} F (h : list (op V)) : (forall t, F t = false) -> legal_run F a_start h ->
  exists w w' rs, exec true (start F) h = Some (w, rs) /\ exec true (start F) (map fst (kept h rs)) = Some (w', map snd (kept h rs)) /\
    forall h2, legal_run F (fst (aexec F a_start h)) h2 ->
      exists w1 w1' rs2, exec true w h2 = Some (w1, rs2) /\ exec true w' h2 = Some (w1', rs2).
Proof. exact (fun HF => @rollback V F HF h). Qed.

(** The two streams tell which blocks threw, and which exception with which numbers: two programs that print nothing
    themselves and write the same had the same outcomes, block for block. *)
Theorem C67_tell {V V'} F F' text (items : list (string * Z * list (stmt V))) (items' : list (string * Z * list (stmt V'))) w w' o e :
  (forall x t, what x = Some t -> text x = t) ->
  legal_session F a_start (map snd items) -> legal_session F' a_start (map snd items') ->
  Forall plain_item items -> Forall plain_item items' ->
  session true text items (Desk (start F) "" "") = Ret (Desk w o e) tt ->
  session true text items' (Desk (start F') "" "") = Ret (Desk w' o e) tt ->
  map snd (snd (a_session F a_start (map snd items))) = map snd (snd (a_session F' a_start (map snd items'))).
Proof. exact (@tell V V' F F' text items items' w w' o e). Qed.

(** C67_strong fails for std::bad_alloc: realloc gives the old storage up before it asks for the new one. *)
Definition mem_F (t : nat) : bool := Nat.eqb t 1.
Definition mem_h : list (op Z) := [NewSized (K1 1 center) [(0, 1, 0)]; Write 0 0 [0] [FC] 5].
Theorem C67_memory_refuted :
  exists F (h : list (op Z)) w aw c w' c2 w1 w2 r r',
    after F h w aw /\ legal aw c /\ step true w c = Some (w', RExn ENoMem) /\ creates c = false /\ legal aw c2 /\ looks c2 = true /\
    step true w c2 = Some (w1, r) /\ step true w' c2 = Some (w2, r') /\ r <> r'.
Proof.
  assert (HL : legal_run mem_F a_start mem_h) by legal_tac.
  destruct (after_exists mem_F mem_h HL) as (w & HA).
  set (aw := fst (aexec mem_F a_start mem_h)) in *. set (c := Realloc 0 [(0, 2, 0)] : op Z). set (c2 := Read 0 0 [0] [FC] : op Z).
  assert (L1 : legal aw c) by (subst aw c; legal_tac). assert (L2 : legal aw c2) by (subst aw c2; legal_tac).
  destruct (after_step _ _ _ _ _ HA L1) as (w' & E & HA'). destruct (after_step _ _ _ _ _ HA L2) as (w1 & E1 & _).
  assert (L3 : legal (fst (astep mem_F aw c)) c2) by (subst aw c c2; legal_tac).
  destruct (after_step _ _ _ _ _ HA' L3) as (w2 & E2 & _).
  exists mem_F, mem_h, w, aw, c, w', c2, w1, w2. do 2 eexists. split; [exact HA|]. split; [exact L1|]. split; [exact E|]. split; [reflexivity|].
  split; [exact L2|]. split; [reflexivity|]. split; [exact E1|]. split; [exact E2|]. vm_compute. discriminate.
Qed.

(** ** A case *)

(** Three blocks: the first makes an array, sets an element and prints it; the second asks for an element outside; the third
    for the same one as the first.  The texts are those of std::cout and of the error file. *)
Definition ex_text (e : exn) : string := match what e with Some t => t | None => "std::bad_alloc" end.
Definition ex_items : list (string * Z * list (stmt Z)) :=
  [("2020-01-01 12:00:00", 41, [Do (NewSized (K1 1 center) [(1, 3, 0)]); Do (Write 0 0 [-1] [FC] 7); Show fmt_i (Elt 0 0 [-1] [FC])]);
   ("2020-01-01 12:00:01", 18467, [Do (Write 0 0 [2] [FC] 8); Do (Write 0 0 [3] [FC] 9); Do (Clear 0)]);
   ("2020-01-01 12:00:01", 6334, [Show fmt_i (Elt 0 0 [2] [FC])])].
Definition ex_plain : list (string * Z * list (stmt Z)) :=
  [("2020-01-01 12:00:00", 41, [Do (NewSized (K1 1 center) [(1, 3, 0)])]);
   ("2020-01-01 12:00:01", 18467, [Do (Write 0 0 [3] [FC] 9); Do (Clear 0)])].

Example C67_ex :
  legal_session nofail a_start (map snd ex_items) /\ Forall (fun '(_, z, _) => 0 <= z < 2147483648) ex_items /\
  (exists w, session true ex_text ex_items (Desk (start nofail) "" "") =
    Ret (Desk w
      ("7" ++ NL ++ "[2020-01-01 12:00:00|0000000041]: no exception" ++ NL ++
       "[2020-01-01 12:00:01|0000018467]: with exception" ++ NL ++
       "8" ++ NL ++ "[2020-01-01 12:00:01|0000006334]: no exception" ++ NL)
      ("[2020-01-01 12:00:01|0000018467]: i is out of range: 3 range:[-1,2]" ++ NL)) tt) /\
  legal_session nofail a_start (map snd ex_plain) /\ Forall plain_item ex_plain /\
  map snd (snd (a_session nofail a_start (map snd ex_plain))) = [None; Some (ERangeC 0 3 (-1) 2)].
Proof.
  split; [|split; [|split; [|split; [|split]]]].
  - legal_tac. all: intros ? ? [=]; subst; vm_compute; discriminate.
  - repeat (apply Forall_cons || apply Forall_nil); cbv beta iota; lia.
  - eexists. vm_compute. reflexivity.
  - legal_tac. all: intros ? ? [=].
  - repeat (apply Forall_cons || apply Forall_nil); unfold plain_item; cbn [fst snd]; (split; [cbn; repeat split; discriminate|]);
      (split; [lia|]); split; repeat (apply Forall_cons || apply Forall_nil); try exact I; reflexivity.
  - vm_compute. reflexivity.
Qed.

Print Assumptions C67_other.
Print Assumptions C67_session.
Print Assumptions C67_strong.
Print Assumptions C67_rollback.
Print Assumptions C67_tell.
Print Assumptions C67_memory_refuted.
