(** What programs of exec_except do and write. *)

From Coq Require Import ZArith Ascii String List Bool.
From Verif Require Import Base M_Flags M_Bytes M_TecZone M_TecFile M_Scan M_World M_Client M_Texts M_Except Spec Spec_Log Spec_Hist Spec_Texts.
Import ListNotations.
Open Scope string_scope.
Open Scope Z_scope.

Section Session.
Context {V : Type}.
Variable F : nat -> bool.
Implicit Types (s : stmt V) (b : list (stmt V)).

(** The call a statement makes, and what it shows. *)
Definition stmt_op s : op V := match s with Do c => c | Show _ p => Read (p_arr p) (p_comp p) (p_at p) (p_fl p) end.
Definition shown s (r : result V) : string :=
  match s, r with Show print _, RVal (Some v) => print v ++ NL | _, _ => "" end.

(** The statements of a block in order, up to the first one that throws: the arrays afterwards, the calls made, the text
    shown and the exception. *)
Fixpoint a_block (aw : aworld V) b : aworld V * list (op V) * string * option exn :=
  match b with
  | [] => (aw, [], "", None)
  | s :: b' =>
      match astep F aw (stmt_op s) with
      | (aw', RExn e) => (aw', [stmt_op s], "", Some e)
      | (aw', r) => let '(aw2, h, t, x) := a_block aw' b' in (aw2, stmt_op s :: h, shown s r ++ t, x)
      end
  end.

(** The blocks one after the other, whether they throw or not. *)
Fixpoint a_session (aw : aworld V) (bs : list (list (stmt V))) : aworld V * list (op V) * list (string * option exn) :=
  match bs with
  | [] => (aw, [], [])
  | b :: bs' =>
      let '(aw1, h, t, x) := a_block aw b in
      let '(aw2, h', rs) := a_session aw1 bs' in (aw2, (h ++ h')%list, (t, x) :: rs)
  end.

(** Every call that is made is a legal one; only elements that have been set are shown. *)
Fixpoint legal_block (aw : aworld V) b : Prop :=
  match b with
  | [] => True
  | s :: b' =>
      legal aw (stmt_op s) /\ (forall print p, s = Show print p -> snd (astep F aw (stmt_op s)) <> RVal None) /\
      match snd (astep F aw (stmt_op s)) with RExn _ => True | _ => legal_block (fst (astep F aw (stmt_op s))) b' end
  end.
Fixpoint legal_session (aw : aworld V) (bs : list (list (stmt V))) : Prop :=
  match bs with
  | [] => True
  | b :: bs' => legal_block aw b /\ legal_session (fst (fst (fst (a_block aw b)))) bs'
  end.

End Session.

(** Ten digits. *)
Definition ten_digits (z : Z) (d : string) : Prop := all_digits d = true /\ String.length d = 10%nat /\ decimal d = Some z.

(** What is written for a list of blocks: for each of them what it shows, then one line on the first stream; and for each
    that throws one line on the second stream, with the same stamp and the message. *)
Inductive writes (text : exn -> string) : list (string * Z) -> list (string * option exn) -> string -> string -> Prop :=
| writes_end : writes text [] [] "" ""
| writes_done time z d t its rs o e :
    ten_digits z d -> writes text its rs o e ->
    writes text ((time, z) :: its) ((t, None) :: rs) (t ++ "[" ++ time ++ "|" ++ d ++ "]: no exception" ++ NL ++ o) e
| writes_thrown time z d t x its rs o e :
    ten_digits z d -> writes text its rs o e ->
    writes text ((time, z) :: its) ((t, Some x) :: rs)
      (t ++ "[" ++ time ++ "|" ++ d ++ "]: with exception" ++ NL ++ o) ("[" ++ time ++ "|" ++ d ++ "]: " ++ text x ++ NL ++ e).

(** ** Calls that throw *)

Section Kept.
Context {V : Type}.
Definition threw (r : result V) : bool := match r with RExn _ => true | _ => false end.
(** A constructor call: it takes a number even if it throws. *)
Definition creates (c : op V) : bool := match c with New _ | NewSized _ _ => true | _ => false end.
(** The calls without those that threw (constructor calls stay), and their results. *)
Definition kept (h : list (op V)) (rs : list (result V)) : list (op V * result V) :=
  filter (fun '(c, r) => negb (threw r) || creates c) (combine h rs).
(** Calls that only look. *)
Definition looks (c : op V) : bool := match c with Size _ | Read _ _ _ _ | DataRead _ _ _ => true | _ => false end.
Definition reads_file (c : op V) : bool := match c with ReadPlt _ _ _ _ _ _ _ _ _ => true | _ => false end.
End Kept.

(** A text of one line. *)
Fixpoint one_line (s : string) : Prop := match s with "" => True | String c s' => c <> ascii_of_nat 10 /\ one_line s' end.

(** A text without a closing bracket (the "%F %X" of a clock is one). *)
Fixpoint no_bracket (s : string) : Prop := match s with "" => True | String c s' => c <> "]"%char /\ no_bracket s' end.

(** A statement that prints nothing itself and does not read a file; one item of
    a session made of such statements, at a time without closing bracket and
    with a random number of std::rand. *)
Definition plain_do {V : Type} (s : stmt V) : Prop := match s with Do _ => True | Show _ _ => False end.
Definition no_file {V : Type} (s : stmt V) : Prop := reads_file (stmt_op s) = false.
Definition plain_item {V : Type} (i : string * Z * list (stmt V)) : Prop :=
  no_bracket (fst (fst i)) /\ 0 <= snd (fst i) < 2147483648 /\ Forall plain_do (snd i) /\ Forall no_file (snd i).
