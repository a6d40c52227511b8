(** Reading numbers from text: sscanf and strtol as used by scr/tinyxml2 and scr/liton_ordered_tec.

    This file models no function of /repo but the C library functions called there, in the "C" locale. *)

From Coq Require Import ZArith Ascii String List Bool.
From Verif Require Import Base M_Bytes.
Import ListNotations.
Open Scope string_scope.
Open Scope Z_scope.

(** [isspace] for the characters up to 127. *)
Definition is_ws (c : ascii) : bool := let n := b2z c in (n =? 32) || ((9 <=? n) && (n <=? 13)).
Fixpoint skip_ws (s : string) : string :=
  match s with
  | String c s' => if is_ws c then skip_ws s' else s
  | "" => ""
  end.

Definition is_digit (c : ascii) : bool := let n := b2z c in (48 <=? n) && (n <=? 57).

(** The digits at the start of a text: their value (added to [acc]), how many they are and what follows. *)
Fixpoint digits (s : string) (acc : Z) (k : nat) : Z * nat * string :=
  match s with
  | String c s' => if is_digit c then digits s' (10 * acc + (b2z c - 48)) (S k) else (acc, k, s)
  | "" => (acc, k, "")
  end.

(** An optional sign; [true] for minus. *)
Definition sign (s : string) : bool * string :=
  match s with
  | String c s' => if b2z c =? 45 then (true, s') else if b2z c =? 43 then (false, s') else (false, s)
  | "" => (false, s)
  end.

(** White space, a sign and decimal digits; [None] without digits. *)
Definition decimal (s : string) : option Z :=
  let '(neg, s) := sign (skip_ws s) in
  let '(v, k, _) := digits s 0 0 in
  if (k =? 0)%nat then None else Some (if neg : bool then - v else v).

(** [sscanf(s, "%d", &i)] and [sscanf(s, "%u", &u)]; [Ok None]: nothing assigned.  A number that does not
    fit is undefined. *)
Definition scan_int (s : string) : res (option Z) :=
  match decimal s with
  | None => Ok None
  | Some v => let* v := ck v in Ok (Some v)
  end.
Definition scan_unsigned (s : string) : res (option Z) :=
  match decimal s with
  | None => Ok None
  | Some v => if Z.abs v <? 2 ^ 32 then Ok (Some (v mod 2 ^ 32)) else UB
  end.

(** [strtol(s, NULL, 10)] for a 64 bit [long]. *)
Definition strtol (s : string) : Z :=
  match decimal s with
  | None => 0
  | Some v => Z.max (- 2 ^ 63) (Z.min (2 ^ 63 - 1) v)
  end.

(** The bit pattern of the [double] nearest to [a / b] ([0 <= a], [0 < b]), ties to even. *)
Definition round_f64 (a b : Z) : Z :=
  if a =? 0 then 0 else
  let e := Z.log2 a - Z.log2 b in
  let e := if a * 2 ^ Z.max 0 (- e) <? b * 2 ^ Z.max 0 e then e - 1 else e in
  let ex := Z.max (e - 52) (-1074) in
  let m := round_div (a * 2 ^ Z.max 0 (- ex)) (b * 2 ^ Z.max 0 ex) in
  Z.min ((ex + 1074) * 2 ^ 52 + m) (2047 * 2 ^ 52).

(** Letters are compared without regard to case: [p] is in lower case. *)
Definition lower (c : ascii) : Z := let n := b2z c in if (65 <=? n) && (n <=? 90) then n + 32 else n.
Fixpoint starts_nocase (p s : string) : bool :=
  match p, s with
  | "", _ => true
  | String a p', String c s' => (b2z a =? lower c) && starts_nocase p' s'
  | _, "" => false
  end.

(** The exponent after the digits, if any; [None]: an [e] without digits behind it. *)
Definition exponent (s : string) : option Z :=
  match s with
  | String c s' =>
      if lower c =? 101 then
        let '(neg, s) := sign s' in
        let '(v, k, _) := digits s 0 0 in
        if (k =? 0)%nat then None else Some (if neg : bool then - v else v)
      else Some 0
  | "" => Some 0
  end.

(** [sscanf(s, "%lf", &d)]: the bit pattern; [None]: nothing assigned.  Hexadecimal numbers are not modelled (only their leading 0 is read). *)
Definition scan_double (s : string) : option Z :=
  let '(neg, s) := sign (skip_ws s) in
  let sb := if neg : bool then 2 ^ 63 else 0 in
  if starts_nocase "inf" s then Some (sb + 2047 * 2 ^ 52)
  else if starts_nocase "nan" s then Some (sb + 2047 * 2 ^ 52 + 2 ^ 51)
  else
    let '(v, k, s) := digits s 0 0 in
    let '(v, k, n, s) :=
      match s with
      | String c s' =>
          if b2z c =? 46 then let '(v', k', r) := digits s' v 0 in (v', (k + k')%nat, k', r) else (v, k, O, s)
      | "" => (v, k, O, s)
      end in
    if (k =? 0)%nat then None else
    match exponent s with
    | None => None
    | Some e =>
        let e := e - Z.of_nat n in
        Some (sb + round_f64 (v * 10 ^ Z.max 0 e) (10 ^ Z.max 0 (- e)))
    end.
