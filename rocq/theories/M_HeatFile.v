(** The Tecplot file of test/Example_D2_heat (the numerical part of that program is in M_Examples.v). *)

From Coq Require Import ZArith String List Bool.
From Verif Require Import Base M_Flags M_Bytes M_TecZone M_TecFile M_LogFiles
  M_Loop M_RS1 M_RS2 M_RS3 M_Heap M_PD1 M_PD2 M_PD3 M_World M_Describe M_Output M_Client M_Examples.
Import ListNotations.
Open Scope Z_scope.

(** The pointer [a.data_pt(n)] (PointData_2D.hpp:382) of array [a] of a program. *)
Definition pt_of {V} (chk : bool) (a : nat) (n : Z) (w : world V) : res ptr :=
  match find w a with Some (k, o) => m_data_pt chk k (heap w) o n | None => UB end.

(** Example_D2_heat.cpp:49-63: [tecfile] with its variables and one zone, and the TEC_DATA in the zone's vector Data.
    [x] is array 0, [u] is array 1.  The loop pushes a TEC_DATA back after each dimension is described; neither
    depends on the other.  TEC_FILE() and TEC_ZONE() have the names of ordered_tec.h:365 and 449. *)
Definition tec_setup {V} (chk : bool) (w : world V) : res (tfile * list tref) :=
  match find w 0 with
  | Some (_, o) =>
      let* z := describe chk o (new_zone "untitled_zone") in
      let* p0 := pt_of chk 0 0 w in let* d0 := ref_of CDouble p0 in
      let* p1 := pt_of chk 0 1 w in let* d1 := ref_of CDouble p1 in
      let* p2 := pt_of chk 1 0 w in let* d2 := ref_of CDouble p2 in
      let* p3 := pt_of chk 1 1 w in let* d3 := ref_of CDouble p3 in
      let f := new_file "untitled_file" "." "untitled" in
      Ok (mkFile (f_path f) (f_name f) (f_title f) ["x"; "y"; "u1"; "u2"]%string (f_type f) (f_aux f) [z] (f_echo f), [d0; d1; d2; d3])
  | None => UB
  end.

Section HeatFile.
Context {V : Type}.
(** [strict]: as in M_TecFile.v. *)
Variables chk strict : bool.
(** The bytes of a [double], as in M_Output.v. *)
Variables (enc : V -> bytes) (junk : nat -> Z -> bytes).

(** The state is the arrays, the files and the logs; [last_log] is log 0. *)
Definition on_arrays {A} (m : M (world V) A) : M (world V * (files * logs)) A := on_fst m.
Definition on_disk (m : M (files * logs) unit) : M (world V * (files * logs)) unit :=
  fun st => match m (snd st) with
            | Ret d u => Ret (fst st, d) u
            | Thr d x => Thr (fst st, d) x
            | Undef => Undef
            end.

(** Example_D2_heat.cpp:121-123.  [can]: the paths that can be opened for writing; [e]: the surroundings of write_plt. *)
Definition tec_output (can : string -> bool) (e : env) (f : tfile) (rs : list tref) : M (world V * (files * logs)) unit :=
  fun st =>
    match set_echo_mode strict "full" "full" f with
    | Ret f' _ => on_disk (do_call can (CPlt 0 e (fill enc junk (heap (fst st)) f' (fun _ => rs))) ;;; do_call can (CXml 0 0)) st
    | Thr _ x => Thr st x
    | Undef => Undef
    end.

(** Example_D2_heat.cpp:45-123; an exception ends the program. *)
Definition heat2_file (can : string -> bool) (e : env) (Nx Ny reps : Z) (k : nat) (xf yf : Z -> V) (ini exact : V -> V -> V)
    (neg : V -> V) (lapx : V -> V -> V -> V) (lapy : V -> V -> V -> V -> V) (adv : V -> V -> V) : M (world V * (files * logs)) unit :=
  on_arrays (arrays2 chk Nx Ny) ;;;
  do* d := on_arrays (fun w => lift (tec_setup chk w) w) in
  on_arrays (solve2 chk reps k xf yf ini exact neg lapx lapy adv) ;;;
  tec_output can e (fst d) (snd d).
End HeatFile.
