(** Specification vocabulary for the files of logs. *)

From Coq Require Import ZArith Ascii String List Bool.
From Verif Require Import Base M_Bytes M_TecZone M_TecFile Spec_Tec Spec_Plt Spec_Xml M_LogFiles.
Import ListNotations.
Open Scope list_scope.
Open Scope string_scope.
Open Scope Z_scope.

(** The three texts of a log. *)
Inductive form := Txt | Json | Xml.
Definition ext (m : form) : string := match m with Txt => ".txt" | Json => ".json" | Xml => ".xml" end.
Definition own (m : form) : file_log -> list string := match m with Txt => fl_echo | Json => fl_json | Xml => fl_xml end.
Definition zown (m : form) : zone_log -> list string := match m with Txt => zl_echo | Json => zl_json | Xml => zl_xml end.
(** The first line of XML files; tabulators before a line of the file, and of a zone in it. *)
Definition head_of (m : form) : string :=
  match m with Xml => "<?xml version=""1.0"" encoding=""UTF-8""?>" ++ NL | _ => "" end.
Definition indent (m : form) (depth : Z) : nat := match m with Txt => 0%nat | _ => Z.to_nat depth end.
Definition indent2 (m : form) (depth : Z) : nat := match m with Txt => 0%nat | _ => (Z.to_nat depth + 2)%nat end.

(** write_echo(), write_json(depth) and write_xml(depth) of log [k]; the same for its zone [i]. *)
Definition log_call (m : form) (k : nat) (depth : Z) : call :=
  match m with Txt => CEcho k | Json => CJson k depth | Xml => CXml k depth end.
Definition zone_call (m : form) (k i : nat) (depth : Z) : call :=
  match m with Txt => ZEcho k i | Json => ZJson k i depth | Xml => ZXml k i depth end.

(** The names of the files.  The file opened is named by the characters before the first NUL. *)
Definition name_in (f : tfile) (e : string) : string := f_path f ++ "/" ++ f_name f ++ e.
Definition zname_in (z : zone_log) (e : string) : string := "./Zone_" ++ z_name (zl_zone z) ++ e.
Definition log_file (m : form) (g : file_log) : string := c_str (name_in (fl_file g) (ext m)).
Definition zone_file (m : form) (z : zone_log) : string := c_str (zname_in z (ext m)).

(** A program starts with any files and no logs; descriptions are such that write_plt is specified (C33 to C42). *)
Definition fair (c : call) : Prop :=
  match c with CPlt _ _ f => file_wf f /\ plt_size f < 2 ^ 63 | _ => True end.
Definition reached (h : list ((string -> bool) * call)) (d : files) (l : logs) : Prop :=
  Forall (fun p => fair (snd p)) h /\ exists d0, do_calls h (d0, fun _ => no_log) = Some (d, l).

(** The file that a call writes; a program that does not write the file [p] on its way. *)
Definition target (l : logs) (c : call) : option string :=
  let zone k i m := option_map (zone_file m) (nth_error (fl_zones (l k)) i) in
  match c with
  | CPlt _ _ f => Some (c_str (name_in f ".plt"))
  | CEcho k => Some (log_file Txt (l k))
  | CJson k _ => Some (log_file Json (l k))
  | CXml k _ => Some (log_file Xml (l k))
  | ZEcho k i => zone k i Txt
  | ZJson k i _ => zone k i Json
  | ZXml k i _ => zone k i Xml
  | CLoad _ _ => None
  end.
Fixpoint spares (p : string) (h : list ((string -> bool) * call)) (st : files * logs) : Prop :=
  match h with
  | [] => True
  | (can, c) :: h' =>
      target (snd st) c <> Some p /\
      match do_call can c st with Ret st' _ | Thr st' _ => spares p h' st' | Undef => True end
  end.
(** A program that does not assign log [k]. *)
Definition keeps (k : nat) (h : list ((string -> bool) * call)) : Prop :=
  Forall (fun p => match snd p with CPlt j _ _ | CLoad j _ => j <> k | _ => True end) h.

Definition bytes_of (s : string) : bytes := list_ascii_of_string s.
