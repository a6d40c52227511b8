(** operator>> of std::istringstream and get_auxiliary_data for the types it is used with.

    The operators are those of libstdc++ (C++11 and later) in the "C" locale; they are not part of /repo. *)

From Coq Require Import ZArith Ascii String List Bool.
From Verif Require Import Base M_Bytes M_TecZone M_TecFile M_Scan.
Import ListNotations.
Open Scope string_scope.
Open Scope Z_scope.

(** [istringstream(s) >> x] for a variable holding [old]: the new value.  White space in front is skipped; if nothing is
    left, the variable keeps its value.  Otherwise, if no number can be read, it becomes 0, and if the number does not
    fit, it becomes the nearest one that does.  The failbit is not modelled: the stream is a local variable and nobody looks at it. *)

(** [double]: the characters of a decimal number are collected and given to strtod.  The words inf and nan are
    not numbers to it.  Hexadecimal: only the leading 0 is collected.  The pattern below that of an infinity is
    the greatest finite number of that sign. *)
Definition extract_double (s : string) (old : Z) : Z :=
  match skip_ws s with
  | "" => old
  | t =>
      let '(_, u) := sign t in
      if starts_nocase "inf" u || starts_nocase "nan" u then 0 else
      match scan_double t with
      | None => 0
      | Some y => if y mod 2 ^ 63 =? 2047 * 2 ^ 52 then y - 1 else y
      end
  end.

(** [int]. *)
Definition extract_int (s : string) (old : Z) : Z :=
  match skip_ws s with
  | "" => old
  | t => match decimal t with None => 0 | Some v => Z.max INT_MIN (Z.min INT_MAX v) end
  end.

(** [unsigned]: a number with a minus sign is negated mod 2^32. *)
Definition extract_unsigned (s : string) (old : Z) : Z :=
  match skip_ws s with
  | "" => old
  | t => match decimal t with None => 0 | Some v => if Z.abs v <? UINT_MOD then v mod UINT_MOD else UINT_MOD - 1 end
  end.

(** [std::string]: one word. *)
Fixpoint word (s : string) : string :=
  match s with
  | String c s' => if is_ws c then "" else String c (word s')
  | "" => ""
  end.
Definition extract_string (s : string) (old : string) : string :=
  match skip_ws s with
  | "" => old
  | t => word t
  end.

(** get_auxiliary_data, ordered_tec.h:76-87 and 114-125: [data] after the call, [old] before it. *)
Definition get_auxiliary_as {T} (extract : string -> T -> T) (what owner : string) (a : aux) (name : string) (old : T) : res T :=
  let* s := get_auxiliary_data what owner a name in Ok (extract s old).
