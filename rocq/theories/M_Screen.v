(** What write_plt prints on the screen: TEC_FILE::write_plt(bool echo) and the functions it calls,
    scr/liton_ordered_tec/ordered_tec.cpp.

    The functions of M_TecFile.v once more, with the calls of std::printf.  The state has the text printed so
    far in front.  What does not print is taken from M_TecFile.v ([quiet]).  The results of printf are ignored by
    the source; here printing never fails. *)

From Coq Require Import ZArith Ascii String List Bool.
From Verif Require Import Base M_Bytes M_TecZone M_TecFile.
Import ListNotations.
Open Scope list_scope.
Open Scope string_scope.
Open Scope Z_scope.

(** A loop over a vector with the index. *)
Fixpoint foreach {T A} (k : nat) (l : list A) (f : nat -> A -> M T unit) : M T unit :=
  match l with
  | [] => ret tt
  | a :: l' => f k a ;;; foreach (S k) l' f
  end.

(** A step which prints nothing. *)
Definition quiet {S A} (m : M S A) : M (string * S) A :=
  fun st => match m (snd st) with
            | Ret s a => Ret (fst st, s) a
            | Thr s e => Thr (fst st, s) e
            | Undef => Undef
            end.

Section Screen.
(** The parameter [echo] of write_plt. *)
Context (echo : bool).

(** [if (echo) { std::printf(...); }] *)
Definition prt {S} (s : string) : M (string * S) unit :=
  fun st => Ret (fst st ++ (if echo then s else ""), snd st) tt.

(** ordered_tec.cpp:1103-1108 and the like: the numbers of a bracket *)
Fixpoint zints (l : list Z) : M (string * (fs * zone_log)) unit :=
  match l with
  | [] => ret tt
  | x :: l' =>
      do* b := lift (int_text x) in
      prt b ;;;
      quiet (zecho_add b) ;;;
      zints l'
  end.

(** ordered_tec.cpp:1097-1163 *)
Definition zone_echo_on (z : zone) (r : real) : M (string * (fs * zone_log)) unit :=
  let on k := Z.testbit (z_echo z) k in
  (if on 3 then
     do* a := lift (sprintf 100 ("     Dim = " ++ fmt_i (r_rdim r) ++ "   Real_Max = [")) in
     prt a ;;; quiet (zecho a) ;;;
     zints (firstn (Z.to_nat (r_rdim r)) (list3 (r_max r))) ;;;
     prt (" ]" ++ NL) ;;; quiet (zecho_add " ]")
   else ret tt) ;;;
  (if on 4 then
     prt "     Org_Max = [" ;;; quiet (zecho "     Org_Max = [") ;;;
     zints (list3 (z_max z)) ;;;
     prt (" ]" ++ NL) ;;; quiet (zecho_add " ]")
   else ret tt) ;;;
  (if on 5 then
     prt "     Skip = [" ;;; quiet (zecho "     Skip = [") ;;;
     zints (list3 (z_skip z)) ;;;
     prt (" ]" ++ NL) ;;; quiet (zecho_add " ]")
   else ret tt) ;;;
  (if on 6 then
     prt "     Begin = [" ;;; quiet (zecho "     Begin = [") ;;;
     zints (list3 (z_begin z)) ;;;
     prt " ]" ;;; quiet (zecho_add " ]") ;;;
     prt "   End = [" ;;; quiet (zecho_add " End = [") ;;;
     zints (list3 (z_end z)) ;;;
     prt (" ]" ++ NL) ;;; quiet (zecho_add " ]")
   else ret tt) ;;;
  (if on 7 && negb (z_strand z =? -1) then
     do* b := lift (sprintf 100 ("     StrandId = " ++ fmt_i (z_strand z) ++ " SolutionTime = " ++ fmt_le (z_time z))) in
     prt (b ++ NL) ;;; quiet (zecho b)
   else ret tt).

(** TEC_ZONE::write_plt_data, ordered_tec.cpp:1072-1204 *)
Definition zone_data_on (vars : list string) (oom : nat -> bool) (z : zone) (r : real)
  : M (string * (fs * zone_log)) unit :=
  do* pos_b := quiet tell in
  quiet (put (w_f32 F299)) ;;;
  quiet (for_each 0 (z_data z) (fun _ d => put (w_int (d_type d)))) ;;;
  quiet (put (w_int 0)) ;;; quiet (put (w_int 0)) ;;; quiet (put (w_int (-1))) ;;;
  do* bufs := quiet (make_buf z r oom 0 (z_data z)) in
  quiet (for_each 0 (combine (z_data z) bufs) (fun k p =>
    do* n := lift (imul3 (r_max r)) in
    do* (mn, mx) := lift (minmax (d_type (fst p)) (snd p) (i2sz n)) in
    put (w_f64 mn) ;;;
    put (w_f64 mx) ;;;
    zdata_upd k (fun g => mkDL (dl_type g) (dl_size g) (dl_pt g) mn mx))) ;;;
  zone_echo_on z r ;;;
  (if Z.testbit (z_echo z) 2 then prt "     write variables:" ;;; quiet (zecho "     write variables:") else ret tt) ;;;
  foreach 0 (combine (z_data z) bufs) (fun k p =>
    do* pos := quiet tell in
    quiet (zdata_upd k (fun g => mkDL (dl_type g) (dl_size g) pos (dl_min g) (dl_max g))) ;;;
    do* n := lift (imul3 (r_max r)) in
    quiet (fwrite (snd p) (d_size (fst p)) (i2sz n)) ;;;
    (if Z.testbit (z_echo z) 2 then
       match nth_error vars k with
       | Some v => prt (" <" ++ c_str v ++ ">") ;;; quiet (zecho_add (" <" ++ v ++ ">"))
       | None => undef
       end
     else ret tt)) ;;;
  (if Z.testbit (z_echo z) 2 then prt NL else ret tt) ;;;
  quiet (realise_buf r (length (z_data z))) ;;;
  do* pos_e := quiet tell in
  quiet (upd_snd (zl_set_size (pos_e - pos_b))) ;;;
  (if Z.testbit (z_echo z) 8 then
     do* b := lift (sprintf 100 ("     zone size: " ++ fmt_fixed 1 (pos_e - pos_b) (2 ^ 20) ++ "MB")) in
     prt (b ++ NL) ;;; quiet (zecho b)
   else ret tt).

(** Run a function on [last_log.Zones[i]]. *)
Definition on_zone_on {A} (i : nat) (m : M (string * (fs * zone_log)) A) : M (string * (fs * file_log)) A :=
  fun st => match nth_error (fl_zones (snd (snd st))) i with
            | None => Undef
            | Some zl =>
                let back (s : fs * zone_log) : fs * file_log :=
                  match upd_nth i (fun _ => snd s) (fl_zones (snd (snd st))) with
                  | Some zs => (fst s, fl_set_zones zs (snd (snd st)))
                  | None => (fst s, snd (snd st))
                  end in
                match m (fst st, (fst (snd st), zl)) with
                | Ret s a => Ret (fst s, back (snd s)) a
                | Thr s e => Thr (fst s, back (snd s)) e
                | Undef => Undef
                end
            end.

(** TEC_FILE::write_plt_head, ordered_tec.cpp:730-773 *)
Definition file_head_on (f : tfile) (rs : list real) : M (string * (fs * file_log)) unit :=
  quiet (put magic) ;;;
  quiet (put (w_int 1)) ;;;
  quiet (put (w_int (f_type f))) ;;;
  quiet (put (w_string (f_title f))) ;;;
  quiet (put (w_int (Z.of_nat (length (f_vars f))))) ;;;
  (if Z.testbit (f_echo f) 2 then prt "     VAR:" ;;; quiet (fecho "     VAR:") else ret tt) ;;;
  foreach 0 (f_vars f) (fun _ v =>
    quiet (put (w_string v)) ;;;
    (if Z.testbit (f_echo f) 2 then prt (" <" ++ c_str v ++ ">") ;;; quiet (fecho_add (" <" ++ v ++ ">")) else ret tt)) ;;;
  (if Z.testbit (f_echo f) 2 then prt NL else ret tt) ;;;
  quiet (for_each 0 (combine (f_zones f) rs) (fun _ p => put (zone_head (fst p) (snd p)))) ;;;
  quiet (for_each 0 (f_aux f) (fun _ p =>
    put (w_f32 F799) ;;; put (w_string (fst p)) ;;; put (w_int 0) ;;; put (w_string (snd p)))).

(** TEC_FILE::write_plt_data, ordered_tec.cpp:775-800 *)
Definition file_data_on (e : env) (f : tfile) (rs : list real) : M (string * (fs * file_log)) unit :=
  foreach 0 (combine (f_zones f) rs) (fun i p =>
    let z := fst p in
    (if Z.testbit (z_echo z) 0 then
       do* b := lift (zone_line i z) in prt (b ++ NL) ;;; quiet (fecho b)
     else ret tt) ;;;
    on_zone_on i (zone_data_on (f_vars f) (e_oom e i) z (snd p)) ;;;
    quiet (fecho "#ZONE#") ;;;
    (if Z.testbit (z_echo z) 1 then
       do* b := lift (zone_line i z) in prt (b ++ NL) ;;; quiet (fecho b)
     else ret tt)).

(** ordered_tec.cpp:598-614 and 651-668 *)
Definition file_echo_on (f : tfile) (bit : Z) (time : string) : M (string * (fs * file_log)) unit :=
  let line := "#### creat file " ++ c_str (f_path f) ++ "/" ++ c_str (f_name f) ++ ".plt ####" ++ NL in
  if Z.testbit (f_echo f) bit then
    (if Z.testbit (f_echo f) 5 then
       prt ("[" ++ c_str time ++ "] ") ;;; quiet (fecho ("[" ++ time ++ "] "))
     else ret tt) ;;;
    prt line ;;;
    (if Z.testbit (f_echo f) 5 then quiet (fecho_add (file_line f)) else quiet (fecho (file_line f)))
  else ret tt.

(** TEC_FILE::write_plt, ordered_tec.cpp:578-672 *)
Definition write_plt_on_body (e : env) (f : tfile) : M (string * (fs * file_log)) unit :=
  do* rs := quiet (file_pre f) in
  quiet (open_wb e f) ;;;
  file_echo_on f 0 (e_begin e) ;;;
  file_head_on f rs ;;;
  quiet (put (w_f32 F357)) ;;;
  (if Z.testbit (f_echo f) 3 then
     prt ("-------------------------------------" ++ NL) ;;; quiet (fecho "-------------------------------------")
   else ret tt) ;;;
  file_data_on e f rs ;;;
  do* pos := quiet tell in
  quiet (upd_snd (fl_set_size pos)) ;;;
  (if Z.testbit (f_echo f) 4 then
     do* b := lift (sprintf 100 ("     file size: " ++ fmt_fixed 1 pos (2 ^ 20) ++ " MB")) in
     prt (b ++ NL) ;;; quiet (fecho b)
   else ret tt) ;;;
  quiet close ;;;
  quiet (upd_snd (fl_set_using (e_using e))) ;;;
  (if Z.testbit (f_echo f) 6 then
     do* b := lift (sprintf 100 ("     using time : " ++ fmt_lf 5 (e_using e) ++ " s")) in
     prt (b ++ NL) ;;; quiet (fecho b)
   else ret tt) ;;;
  quiet (upd_snd (fl_set_end (e_end e))) ;;;
  file_echo_on f 1 (e_end e) ;;;
  do* l := quiet get_snd in
  do* l' := lift (gen_texts l) in
  quiet (upd_snd (fun _ => l')).
Definition write_plt_on (e : env) (f : tfile) : out (string * (fs * file_log)) unit :=
  write_plt_on_body e f ("", (mkFs None false 0, file_log_of e f)).
End Screen.
