(** Specification vocabulary for auxiliary data and echo modes. *)

From Coq Require Import ZArith Ascii String List Bool.
From Verif Require Import Base M_Bytes M_TecZone M_TecFile.
Import ListNotations.
Open Scope list_scope.
Open Scope Z_scope.

(** ** Auxiliary data *)

(** Dictionary order on the bytes of the names: a proper prefix comes first, otherwise the first
    different byte decides. *)
Definition before (a b : string) : Prop :=
  (exists c r, b = (a ++ String c r)%string) \/
  (exists p c d a' b', a = (p ++ String c a')%string /\ b = (p ++ String d b')%string /\ b2z c < b2z d).

(** A run of calls of add_auxiliary_data and their results. *)
Fixpoint add_all (a : aux) (l : list (string * string)) : aux * list bool :=
  match l with
  | [] => (a, [])
  | (n, v) :: l' =>
      let '(a', b) := add_auxiliary_data a n v in
      let '(a'', bs) := add_all a' l' in (a'', b :: bs)
  end.

(** The first pair of a list with a given name. *)
Definition first_with (n : string) (l : list (string * string)) : option (string * string) :=
  find (fun p => String.eqb (fst p) n) l.

(** ** Echo modes *)

(** A text of zeros and ones. *)
Definition bit_text (s : string) : Prop :=
  forall c, In c (list_ascii_of_string s) -> c = "0"%char \/ c = "1"%char.

(** The flags [n] of a mode with [N] flags are those of the text: of its first [N] characters
    the last stands for flag 0, the one before for flag 1 and so on; the flags above are off. *)
Definition flags_of (N : nat) (s : string) (n : Z) : Prop :=
  0 <= n /\
  let l := firstn N (list_ascii_of_string s) in
  forall i, Z.testbit n (Z.of_nat i) = true <-> nth_error (rev l) i = Some "1"%char.

(** The texts for the four named modes, ordered_tec.h (documentation of set_echo_mode). *)
Definition file_text (s : string) : string :=
  (if string_dec s "brief" then "0100111" else if string_dec s "full" then "1111111"
   else if string_dec s "simple" then "0100001" else if string_dec s "none" then "0000000" else s)%string.
Definition zone_text (s : string) : string :=
  (if string_dec s "brief" then "000001001" else if string_dec s "full" then "111111111"
   else if string_dec s "simple" then "000000001" else if string_dec s "none" then "000000000" else s)%string.

(** Which texts are accepted: by the C++ standard only zeros and ones, by
    libstdc++ whatever starts with [N] of them. *)
Definition accepted (strict : bool) (N : nat) (s : string) : Prop :=
  if strict then bit_text s else bit_text (substring 0 N s).

(** Everything but the flags is unchanged. *)
Definition with_flags (f : tfile) (n : Z) : tfile :=
  mkFile (f_path f) (f_name f) (f_title f) (f_vars f) (f_type f) (f_aux f) (f_zones f) n.
Definition zone_with_flags (n : Z) (z : zone) : zone :=
  mkZone (z_name z) (z_strand z) (z_time z) (z_max z) (z_skip z) (z_begin z) (z_end z) (z_aux z) (z_data z) n.
Definition with_zones (f : tfile) (zs : list zone) : tfile :=
  mkFile (f_path f) (f_name f) (f_title f) (f_vars f) (f_type f) (f_aux f) zs (f_echo f).
