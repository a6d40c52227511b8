(** Specification vocabulary for printed floating point numbers. *)

From Coq Require Import ZArith Ascii String List.
From Verif Require Import Base M_Bytes M_Scan.
Open Scope string_scope.
Open Scope Z_scope.

(** [y] is close to [x] (bit patterns of [double]): the same special value, or a relative error of at most one in a
    hundred thousand (and the smallest positive number, the unit of [Fin]). *)
Definition close (x y : Z) : Prop :=
  match num64 x with
  | Fin v => exists w, num64 y = Fin w /\ 10 ^ 5 * Z.abs (w - v) <= Z.abs v + 10 ^ 5
  | s => num64 y = s
  end.

(** The decimal number [m * 10^e], with a sign, as it may be written in a program or a file, and the [double] it stands
    for: the nearest one ([round_f64], M_Scan.v). *)
Definition literal (neg : bool) (m e : Z) : string := (if neg then "-" else "") ++ fmt_i m ++ "e" ++ fmt_i e.
Definition literal_bits (neg : bool) (m e : Z) : Z :=
  (if neg then 2 ^ 63 else 0) + round_f64 (m * 10 ^ Z.max 0 e) (10 ^ Z.max 0 (- e)).

(** No comma in the text. *)
Definition no_comma (s : string) : Prop := forall c, In c (list_ascii_of_string s) -> b2z c <> 44.
