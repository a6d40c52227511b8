(** Specification vocabulary for get_auxiliary_data. *)

From Coq Require Import ZArith Ascii String List Bool.
From Verif Require Import Base M_Bytes.
Import ListNotations.
Open Scope string_scope.
Open Scope Z_scope.

(** Blank, tabulator, line feed, vertical tabulator, form feed and carriage return. *)
Definition white (c : ascii) : Prop := In (b2z c) [32; 9; 10; 11; 12; 13].
Definition all_white (s : string) : Prop := forall c, In c (list_ascii_of_string s) -> white c.
Definition no_white (s : string) : Prop := forall c, In c (list_ascii_of_string s) -> ~ white c.

(** [w] is the first word of [s]. *)
Definition first_word (s w : string) : Prop :=
  exists l r, s = l ++ w ++ r /\ all_white l /\ w <> "" /\ no_white w /\ (r = "" \/ exists c r', r = String c r' /\ white c).

(** A [double] which six decimals after the point describe exactly, e.g. an integer or 0.25. *)
Definition six_decimals (b : Z) : Prop :=
  0 <= b < 2 ^ 64 /\ exists v n, num64 b = Fin v /\ v * 10 ^ 6 = n * 2 ^ 1074.
