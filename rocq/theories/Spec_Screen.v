(** Lines on the screen and in the echo of the log.

    The lines are those of the flags documented in ordered_tec.h:343-354 and 424-437 (bits counted from
    the end of the list there).  [gap]: what is printed between the brackets of Begin and End. *)

From Coq Require Import ZArith Ascii String List Bool.
From Verif Require Import Base M_Bytes M_TecZone M_TecFile Spec_Tec Spec_Plt.
Import ListNotations.
Open Scope list_scope.
Open Scope string_scope.
Open Scope Z_scope.

Definition if_on (mode bit : Z) (line : string) : list string := if Z.testbit mode bit then [line] else [].

(** " a b c" and " <a> <b>" *)
Definition row (l : list Z) : string := String.concat "" (map (fun x => " " ++ fmt_i x) l).
Definition names (l : list string) : string := String.concat "" (map (fun v => " <" ++ v ++ ">") l).
Definition megabytes (n : Z) : string := fmt_fixed 1 n (2 ^ 20).

(** The lines inside a zone: flags 3 to 7, 2 and 8. *)
Definition lines_in (gap : string) (vars : list string) (z : zone) : list string :=
  let dim := not_one (samples_of z) in
  if_on (z_echo z) 3 ("     Dim = " ++ fmt_i dim ++ "   Real_Max = [" ++ row (firstn (Z.to_nat dim) (samples_of z)) ++ " ]")
  ++ if_on (z_echo z) 4 ("     Org_Max = [" ++ row (list3 (z_max z)) ++ " ]")
  ++ if_on (z_echo z) 5 ("     Skip = [" ++ row (list3 (z_skip z)) ++ " ]")
  ++ if_on (z_echo z) 6 ("     Begin = [" ++ row (list3 (z_begin z)) ++ " ]" ++ gap ++ "End = [" ++ row (list3 (z_end z)) ++ " ]")
  ++ (if z_strand z =? -1 then []
      else if_on (z_echo z) 7 ("     StrandId = " ++ fmt_i (z_strand z) ++ " SolutionTime = " ++ fmt_le (z_time z)))
  ++ if_on (z_echo z) 2 ("     write variables:" ++ names vars)
  ++ if_on (z_echo z) 8 ("     zone size: " ++ megabytes (data_size z) ++ "MB").

(** A zone with its head and end line; [i] is its number, counted from 0. *)
Definition line_of (i : nat) (z : zone) : string := "--   write zone " ++ fmt_i (Z.of_nat i + 1) ++ ": " ++ z_name z ++ "   --".
Definition lines_of (gap : string) (vars : list string) (i : nat) (z : zone) : list string :=
  if_on (z_echo z) 0 (line_of i z) ++ lines_in gap vars z ++ if_on (z_echo z) 1 (line_of i z).
Fixpoint lines_zones (gap : string) (vars : list string) (i : nat) (l : list zone) : list string :=
  match l with [] => [] | z :: l' => lines_of gap vars i z ++ lines_zones gap vars (S i) l' end.

(** The file: what comes before the zones, and after. *)
Definition file_name (f : tfile) (time : string) : string :=
  (if Z.testbit (f_echo f) 5 then "[" ++ time ++ "] " else "") ++ "#### creat file " ++ f_path f ++ "/" ++ f_name f ++ ".plt ####".
Definition lines_before (e : env) (f : tfile) : list string :=
  if_on (f_echo f) 0 (file_name f (e_begin e))
  ++ if_on (f_echo f) 2 ("     VAR:" ++ names (f_vars f))
  ++ if_on (f_echo f) 3 "-------------------------------------".
Definition lines_after (e : env) (f : tfile) : list string :=
  if_on (f_echo f) 4 ("     file size: " ++ megabytes (plt_size f) ++ " MB")
  ++ if_on (f_echo f) 6 ("     using time : " ++ fmt_lf 5 (e_using e) ++ " s")
  ++ if_on (f_echo f) 1 (file_name f (e_end e)).
Definition all_lines (gap : string) (e : env) (f : tfile) : list string :=
  lines_before e f ++ lines_zones gap (f_vars f) 0 (f_zones f) ++ lines_after e f.
(** The lines up to the head of zone [i]. *)
Definition lines_until (gap : string) (e : env) (f : tfile) (i : nat) : list string :=
  lines_before e f ++ lines_zones gap (f_vars f) 0 (firstn i (f_zones f)) ++
  match nth_error (f_zones f) i with Some z => if_on (z_echo z) 0 (line_of i z) | None => [] end.

Definition printed_lines (l : list string) : string := String.concat "" (map (fun s => s ++ NL) l).

(** No name has a NUL character. *)
Definition no_nuls (e : env) (f : tfile) : Prop :=
  no_nul (f_path f) /\ no_nul (f_name f) /\ Forall no_nul (texts_of f) /\ no_nul (e_begin e) /\ no_nul (e_end e).
