(** The files of a log: write_echo(), write_json(depth) and write_xml(depth) of TEC_FILE_LOG and TEC_ZONE_LOG,
    scr/liton_ordered_tec/ordered_tec.cpp, and programs that write and read such files. *)

From Coq Require Import ZArith Ascii String List Bool.
From Verif Require Import Base M_Bytes M_TecZone M_TecFile M_Scan M_Xml M_ReadXml.
Import ListNotations.
Open Scope list_scope.
Open Scope string_scope.
Open Scope Z_scope.

(** ** Texts, with an [int] as depth *)

(** [for (int j = 0; j != depth; j++) { of << "\t"; }], ordered_tec.cpp:114-117, 149-152, 334-337 and 359-362.  For a negative
    [depth] the loop runs up to INT_MAX and overflows. *)
Definition tabs_z (depth : Z) : res string :=
  if depth <? 0 then UB else Ok (String.concat "" (repeat TAB (Z.to_nat depth))).
Definition line_z (depth : Z) (s : string) : res string :=
  let* t := tabs_z depth in Ok (t ++ c_str s ++ NL).

(** TEC_ZONE_LOG::write_json/xml(of, depth), ordered_tec.cpp:331-341 and 356-366 *)
Fixpoint zone_z (depth : Z) (t : list string) : res string :=
  match t with
  | [] => Ok ""
  | s :: t' => let* a := line_z depth s in let* r := zone_z depth t' in Ok (a ++ r)
  end.

(** TEC_FILE_LOG::write_json/xml(of, depth), ordered_tec.cpp:102-122 and 137-157 *)
Fixpoint file_z (depth : Z) (zt : zone_log -> list string) (zs : list zone_log) (t : list string) : res string :=
  match t with
  | [] => Ok ""
  | s :: t' =>
      if String.eqb s ZONE_LINE then
        match zs with
        | [] => UB
        | z :: zs' =>
            let* d := iadd depth 2 in
            let* a := zone_z d (zt z) in
            let* r := file_z depth zt zs' t' in
            Ok (a ++ r)
        end
      else
        let* a := line_z depth s in
        let* r := file_z depth zt zs t' in
        Ok (a ++ r)
  end.

(** ** Files *)

(** The files by path. *)
Definition files := string -> option bytes.
Definition store (p : string) (b : bytes) (d : files) : files := fun q => if String.eqb q p then Some b else d q.

(** [of.open(name.c_str()); if (!of) { throw ...; }]; [can]: the paths that can be opened for writing.  The file
    is emptied. *)
Definition of_open (can : string -> bool) (name : string) : M files unit :=
  fun d => if can (c_str name) then Ret (store (c_str name) [] d) tt
           else Thr d (ETec ("can not open file " ++ name)).
(** [of << s]; writing never fails. *)
Definition of_put (name s : string) : M files unit :=
  fun d => match d (c_str name) with
           | Some b => Ret (store (c_str name) (b ++ list_ascii_of_string s)%list d) tt
           | None => Undef
           end.

(** TEC_FILE_LOG::write_echo/json/xml, ordered_tec.cpp:61-71, 90-100 and 123-134 *)
Definition log_name (l : file_log) (ext : string) : string := f_path (fl_file l) ++ "/" ++ f_name (fl_file l) ++ ext.
Definition put_echo (can : string -> bool) (l : file_log) : M files unit :=
  of_open can (log_name l ".txt") ;;;
  do* t := lift (write_echo l) in of_put (log_name l ".txt") t.
Definition put_json (can : string -> bool) (l : file_log) (depth : Z) : M files unit :=
  of_open can (log_name l ".json") ;;;
  do* t := lift (file_z depth zl_json (fl_zones l) (fl_json l)) in of_put (log_name l ".json") t.
Definition put_xml (can : string -> bool) (l : file_log) (depth : Z) : M files unit :=
  of_open can (log_name l ".xml") ;;;
  of_put (log_name l ".xml") (xml_line ++ NL) ;;;
  do* t := lift (file_z depth zl_xml (fl_zones l) (fl_xml l)) in of_put (log_name l ".xml") t.

(** TEC_ZONE_LOG::write_echo/json/xml, ordered_tec.cpp:298-308, 318-328 and 342-353 *)
Definition zone_name (l : zone_log) (ext : string) : string := "./Zone_" ++ z_name (zl_zone l) ++ ext.
Definition zput_echo (can : string -> bool) (l : zone_log) : M files unit :=
  of_open can (zone_name l ".txt") ;;; of_put (zone_name l ".txt") (zone_text_out 0 (zl_echo l)).
Definition zput_json (can : string -> bool) (l : zone_log) (depth : Z) : M files unit :=
  of_open can (zone_name l ".json") ;;;
  do* t := lift (zone_z depth (zl_json l)) in of_put (zone_name l ".json") t.
Definition zput_xml (can : string -> bool) (l : zone_log) (depth : Z) : M files unit :=
  of_open can (zone_name l ".xml") ;;;
  of_put (zone_name l ".xml") (xml_line ++ NL) ;;;
  do* t := lift (zone_z depth (zl_xml l)) in of_put (zone_name l ".xml") t.

(** TEC_FILE::write_plt, ordered_tec.cpp:578-672, among the files. *)
Definition plt_name (f : tfile) : string := f_path f ++ "/" ++ f_name f ++ ".plt".
Definition after_plt (f : tfile) (s : M_TecFile.fs) (d : files) : files :=
  match disk s with Some b => store (c_str (plt_name f)) b d | None => d end.

(** ** Programs *)

(** Any number of TEC_FILE objects with their [last_log], and of TEC_FILE_LOG objects; all logs are numbered.  A log that was not
    assigned is TEC_FILE_LOG(), ordered_tec.cpp:52-57. *)
Definition no_log : file_log := mkFL (mkFile "" "" "" [] (-1) [] [] 0) [] "" "" 0 0 "" [] [] [].
Definition logs := nat -> file_log.
Definition set_log (k : nat) (g : file_log) (l : logs) : logs := fun j => if (j =? k)%nat then g else l j.

Inductive call :=
| CPlt (k : nat) (e : env) (f : tfile)           (** write_plt of a TEC_FILE whose last_log is log [k] *)
| CEcho (k : nat) | CJson (k : nat) (depth : Z) | CXml (k : nat) (depth : Z)
| ZEcho (k i : nat) | ZJson (k i : nat) (depth : Z) | ZXml (k i : nat) (depth : Z)  (** of zone [i] of log [k] *)
| CLoad (k : nat) (path : string).               (** a new log read from an XML file *)

Definition on_files (m : M files unit) : M (files * logs) unit :=
  fun st => match m (fst st) with
            | Ret d u => Ret (d, snd st) u
            | Thr d x => Thr (d, snd st) x
            | Undef => Undef
            end.
Definition zone_at (l : file_log) (i : nat) : res zone_log :=
  match nth_error (fl_zones l) i with Some z => Ok z | None => UB end.
Definition do_call (can : string -> bool) (c : call) : M (files * logs) unit :=
  fun st =>
  let l k := snd st k in
  match c with
  | CPlt k e f =>
      match write_plt e f with
      | Ret (s, g) u => Ret (after_plt f s (fst st), set_log k g (snd st)) u
      | Thr (s, g) x => Thr (after_plt f s (fst st), set_log k g (snd st)) x
      | Undef => Undef
      end
  | CEcho k => on_files (put_echo can (l k)) st
  | CJson k depth => on_files (put_json can (l k) depth) st
  | CXml k depth => on_files (put_xml can (l k) depth) st
  | ZEcho k i => (do* z := lift (zone_at (l k) i) in on_files (zput_echo can z)) st
  | ZJson k i depth => (do* z := lift (zone_at (l k) i) in on_files (zput_json can z depth)) st
  | ZXml k i depth => (do* z := lift (zone_at (l k) i) in on_files (zput_xml can z depth)) st
  | CLoad k path =>
      match read_log (fst st) path with
      | Ok g => Ret (fst st, set_log k g (snd st)) tt
      | Err x => Thr st x
      | UB => Undef
      end
  end.

(** A program catches every exception and goes on.  [None]: undefined behaviour. *)
Fixpoint do_calls (h : list ((string -> bool) * call)) (st : files * logs) : option (files * logs) :=
  match h with
  | [] => Some st
  | (can, c) :: h' =>
      match do_call can c st with
      | Ret st' _ | Thr st' _ => do_calls h' st'
      | Undef => None
      end
  end.
