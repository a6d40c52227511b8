(** Writing a .plt file and its log: TEC_FILE, TEC_FILE_LOG and TEC_ZONE_LOG of
    scr/liton_ordered_tec.

    What the functions print on the screen (the parameter [echo] of write_plt) is left
    out here; see M_Screen.v.  The results of [fwrite] are ignored by the source; here writing never
    fails. *)

From Coq Require Import ZArith Ascii String List Bool.
From Verif Require Import Base M_Bytes M_TecZone.
Import ListNotations.
Open Scope list_scope.
Open Scope string_scope.
Open Scope Z_scope.

(** TEC_FILE, ordered_tec.h:51-88 and 337-356, without [last_log].
    [f_echo]: the bits of Echo_Mode as a number. *)
Record tfile := mkFile {
  f_path : string; f_name : string; f_title : string;
  f_vars : list string; f_type : Z; f_aux : aux;
  f_zones : list zone; f_echo : Z }.

(** TEC_DATA_LOG, ordered_tec.h:322-332; [min] and [max] are bit patterns of [double]. *)
Record data_log := mkDL { dl_type : Z; dl_size : Z; dl_pt : Z; dl_min : Z; dl_max : Z }.

(** TEC_ZONE_LOG, ordered_tec.h:261-317.  [zl_zone] holds the copied TEC_ZONE_BASE fields
    (its [z_data] and [z_echo] are not part of the log), [zl_real] the sizes.
    [zl_size] is the number of bytes; the source divides it by 1024*1024. *)
Record zone_log := mkZL {
  zl_zone : zone; zl_real : real; zl_data : list data_log; zl_size : Z;
  zl_echo : list string; zl_json : list string; zl_xml : list string }.

(** TEC_FILE_LOG, ordered_tec.h:185-256, in the same way. *)
Record file_log := mkFL {
  fl_file : tfile; fl_zones : list zone_log;
  fl_begin : string; fl_end : string; fl_using : Z; fl_size : Z; fl_error : string;
  fl_echo : list string; fl_json : list string; fl_xml : list string }.

(** What the surroundings decide: whether the file can be opened, which allocations fail (zone
    and variable number), the texts of the two calls of get_time, and the bit pattern of
    the [double] computed from the two calls of clock(). *)
Record env := mkEnv {
  e_open : bool; e_oom : nat -> nat -> bool;
  e_begin : string; e_end : string; e_using : Z }.

(** The file being written ([None]: not created), whether it is open, and the number of live
    temporary buffers. *)
Record fs := mkFs { disk : option bytes; opened : bool; live : Z }.

(** ** Output of bytes; the state is the file system and any log *)

(** W_INT32, W_FLOAT32, W_FLOAT64, W_STRING, ordered_tec.cpp:25-50; a floating point
    number is given by its bit pattern. *)
Definition w_int (z : Z) : bytes := le 4 z.
Definition w_f32 (b : Z) : bytes := le 4 b.
Definition w_f64 (b : Z) : bytes := le 8 b.
Definition w_string (s : string) : bytes :=
  (flat_map (fun c => w_int (char_val c)) (list_ascii_of_string s) ++ w_int 0)%list.

(** 299.0f, 357.0f and 799.0f *)
Definition F299 := 1133871104.   (* 0x43958000 *)
Definition F357 := 1135771648.   (* 0x43B28000 *)
Definition F799 := 1145552896.   (* 0x4447C000 *)

Section IO.
Context {L : Type}.

(** [fwrite] at the end of the file. *)
Definition put (b : bytes) : M (fs * L) unit :=
  fun s => match disk (fst s) with
           | Some d => Ret (mkFs (Some (d ++ b)%list) (opened (fst s)) (live (fst s)), snd s) tt
           | None => Undef
           end.

(** [std::ftell(of)] *)
Definition tell : M (fs * L) Z :=
  fun s => match disk (fst s) with
           | Some d => Ret s (Z.of_nat (length d))
           | None => Undef
           end.

(** [new] and [delete[]] of temporary buffers *)
Definition add_live (n : Z) : M (fs * L) unit :=
  fun s => Ret (mkFs (disk (fst s)) (opened (fst s)) (live (fst s) + n), snd s) tt.

(** A loop over a vector with the index. *)
Fixpoint for_each {A} (k : nat) (l : list A) (f : nat -> A -> M (fs * L) unit) : M (fs * L) unit :=
  match l with
  | [] => ret tt
  | a :: l' => f k a ;;; for_each (S k) l' f
  end.
End IO.

(** [*(v.end() - 1) += s] *)
Fixpoint add_last (l : list string) (s : string) : option (list string) :=
  match l with
  | [] => None
  | [x] => Some [x ++ s]
  | x :: l' => match add_last l' s with Some r => Some (x :: r) | None => None end
  end.

(** [v[k] = f(v[k])] *)
Fixpoint upd_nth {A} (k : nat) (f : A -> A) (l : list A) : option (list A) :=
  match l, k with
  | [], _ => None
  | a :: l', O => Some (f a :: l')
  | a :: l', S k' => match upd_nth k' f l' with Some r => Some (a :: r) | None => None end
  end.

(** ** Zones *)

(** Changes of the zone log. *)
Definition zl_push (s : string) (l : zone_log) : zone_log :=
  mkZL (zl_zone l) (zl_real l) (zl_data l) (zl_size l) (zl_echo l ++ [s])%list (zl_json l) (zl_xml l).
Definition zl_set_data (d : list data_log) (l : zone_log) : zone_log :=
  mkZL (zl_zone l) (zl_real l) d (zl_size l) (zl_echo l) (zl_json l) (zl_xml l).
Definition zl_set_echo (t : list string) (l : zone_log) : zone_log :=
  mkZL (zl_zone l) (zl_real l) (zl_data l) (zl_size l) t (zl_json l) (zl_xml l).
Definition zl_set_real (r : real) (l : zone_log) : zone_log :=
  mkZL (zl_zone l) r (zl_data l) (zl_size l) (zl_echo l) (zl_json l) (zl_xml l).
Definition zl_set_size (n : Z) (l : zone_log) : zone_log :=
  mkZL (zl_zone l) (zl_real l) (zl_data l) n (zl_echo l) (zl_json l) (zl_xml l).
Definition zl_set_text (j x : list string) (l : zone_log) : zone_log :=
  mkZL (zl_zone l) (zl_real l) (zl_data l) (zl_size l) (zl_echo l) j x.

(** TEC_ZONE_LOG::TEC_ZONE_LOG(zone), ordered_tec.cpp:296.  The sizes are set by
    [wrtie_plt_pre]; before, they are unset (zeros here), like [Size]. *)
Definition zone_log_of (z : zone) : zone_log :=
  mkZL z (mkReal 0 0 (mk3 0 0 0) true true) [] 0 [] [] [].

(** TEC_DATA_LOG::TEC_DATA_LOG(data), ordered_tec.cpp:536.  Position, minimum and maximum are unset
    (zeros here). *)
Definition data_log_of (d : tdata) : data_log := mkDL (d_type d) (d_size d) 0 0 0.

Definition zecho (s : string) : M (fs * zone_log) unit := upd_snd (zl_push s).
Definition zecho_add (s : string) : M (fs * zone_log) unit :=
  fun st => match add_last (zl_echo (snd st)) s with
            | Some t => Ret (fst st, zl_set_echo t (snd st)) tt
            | None => Undef
            end.
Definition zdata_upd (k : nat) (f : data_log -> data_log) : M (fs * zone_log) unit :=
  fun st => match upd_nth k f (zl_data (snd st)) with
            | Some d => Ret (fst st, zl_set_data d (snd st)) tt
            | None => Undef
            end.

(** ordered_tec.cpp:1037-1044: the data from number [k] on. *)
Definition data_unset (d : tdata) : bool :=
  match d_mem d with None => true | Some _ => (d_type d =? 0) || (d_size d =? 0) end.
Fixpoint pre_data (z : zone) (vars : list string) (k : nat) (l : list tdata) : M (fs * zone_log) unit :=
  match l with
  | [] => ret tt
  | d :: l' =>
      upd_snd (fun g => zl_set_data (zl_data g ++ [data_log_of d])%list g) ;;;
      if data_unset d then
        throw (ETec ("Zone(" ++ z_name z ++ ").Variable(" ++ nth k vars "" ++ "): Data is unset"))
      else pre_data z vars (S k) l'
  end.

(** TEC_ZONE::wrtie_plt_pre, ordered_tec.cpp:1018-1045.  The sizes are returned; in
    the source they are fields of the zone. *)
Definition zone_pre (vars : list string) (z : zone) : M (fs * zone_log) real :=
  do* r := lift (gather_real_size z) in
  upd_snd (zl_set_real r) ;;;
  if (length (z_data z) =? 0)%nat then throw (ETec ("Zone(" ++ z_name z ++ "): Data is empty"))
  else if negb (length (z_data z) =? length vars)%nat then
    throw (ETec ("Zone(" ++ z_name z ++
      "): the size of Data is not equal to the size of tec_file.Variables"))
  else
    pre_data z vars 0 (z_data z) ;;;
    ret r.

(** TEC_ZONE::write_plt_head, ordered_tec.cpp:1047-1070 *)
Definition zone_head (z : zone) (r : real) : bytes :=
  (w_f32 F299 ++ w_string (z_name z) ++ w_int (-1) ++ w_int (z_strand z) ++ w_f64 (z_time z)
   ++ w_int (-1) ++ w_int 0 ++ w_int 0 ++ w_int 0 ++ w_int 0
   ++ w_int (x0 (r_max r)) ++ w_int (x1 (r_max r)) ++ w_int (x2 (r_max r))
   ++ flat_map (fun p => (w_int 1 ++ w_string (fst p) ++ w_int 0 ++ w_string (snd p))%list) (z_aux z)
   ++ w_int 0)%list.

(** TEC_ZONE::make_buf, ordered_tec.cpp:934-997: the loop over Data.  Buffers
    made before a failing allocation stay allocated. *)
Definition needreal (r : real) : bool := negb (r_noskip r && r_noexc r).
Fixpoint make_buf (z : zone) (r : real) (oom : nat -> bool) (k : nat) (l : list tdata)
  : M (fs * zone_log) (list buffer) :=
  match l with
  | [] => ret []
  | d :: l' =>
      do* b := lift (make_buf1 z r (oom k) d) in
      add_live (if needreal r then 1 else 0) ;;;
      do* bs := make_buf z r oom (S k) l' in
      ret (b :: bs)
  end.

(** TEC_ZONE::realise_buf, ordered_tec.cpp:999-1016 *)
Definition realise_buf (r : real) (n : nat) : M (fs * zone_log) unit :=
  add_live (if needreal r then - Z.of_nat n else 0).

(** The texts of ordered_tec.cpp:1097-1163 *)
Definition int_text (x : Z) : res string := sprintf 100 (" " ++ fmt_i x).
Fixpoint ints_text (l : list Z) : res string :=
  match l with
  | [] => Ok ""
  | x :: l' => let* a := int_text x in let* b := ints_text l' in Ok (a ++ b)
  end.

(** Push a text which is computed with [sprintf]. *)
Definition zecho_res (r : res string) : M (fs * zone_log) unit := do* s := lift r in zecho s.

Definition zone_echo (z : zone) (r : real) : M (fs * zone_log) unit :=
  let on k := Z.testbit (z_echo z) k in
  (if on 3 then zecho_res (let* a := sprintf 100 ("     Dim = " ++ fmt_i (r_rdim r) ++ "   Real_Max = [") in
                           let* b := ints_text (firstn (Z.to_nat (r_rdim r)) (list3 (r_max r))) in
                           Ok (a ++ b ++ " ]")) else ret tt) ;;;
  (if on 4 then zecho_res (let* b := ints_text (list3 (z_max z)) in Ok ("     Org_Max = [" ++ b ++ " ]"))
   else ret tt) ;;;
  (if on 5 then zecho_res (let* b := ints_text (list3 (z_skip z)) in Ok ("     Skip = [" ++ b ++ " ]"))
   else ret tt) ;;;
  (if on 6 then zecho_res (let* b := ints_text (list3 (z_begin z)) in
                           let* c := ints_text (list3 (z_end z)) in
                           Ok ("     Begin = [" ++ b ++ " ]" ++ " End = [" ++ c ++ " ]")) else ret tt) ;;;
  (if on 7 && negb (z_strand z =? -1)
   then zecho_res (sprintf 100 ("     StrandId = " ++ fmt_i (z_strand z) ++ " SolutionTime = " ++ fmt_le (z_time z)))
   else ret tt).

(** [fwrite(buf, size, n, of)] *)
Definition fwrite (buf : buffer) (size n : Z) : M (fs * zone_log) unit :=
  do* b := lift (peek buf 0 (size * n)) in put b.

(** TEC_ZONE::write_plt_data, ordered_tec.cpp:1072-1204 *)
Definition zone_data (vars : list string) (oom : nat -> bool) (z : zone) (r : real)
  : M (fs * zone_log) unit :=
  do* pos_b := tell in
  put (w_f32 F299) ;;;
  for_each 0 (z_data z) (fun _ d => put (w_int (d_type d))) ;;;
  put (w_int 0) ;;; put (w_int 0) ;;; put (w_int (-1)) ;;;
  do* bufs := make_buf z r oom 0 (z_data z) in
  for_each 0 (combine (z_data z) bufs) (fun k p =>
    do* n := lift (imul3 (r_max r)) in
    do* (mn, mx) := lift (minmax (d_type (fst p)) (snd p) (i2sz n)) in
    put (w_f64 mn) ;;;
    put (w_f64 mx) ;;;
    zdata_upd k (fun g => mkDL (dl_type g) (dl_size g) (dl_pt g) mn mx)) ;;;
  zone_echo z r ;;;
  (if Z.testbit (z_echo z) 2 then zecho "     write variables:" else ret tt) ;;;
  for_each 0 (combine (z_data z) bufs) (fun k p =>
    do* pos := tell in
    zdata_upd k (fun g => mkDL (dl_type g) (dl_size g) pos (dl_min g) (dl_max g)) ;;;
    do* n := lift (imul3 (r_max r)) in
    fwrite (snd p) (d_size (fst p)) (i2sz n) ;;;
    (if Z.testbit (z_echo z) 2 then
       match nth_error vars k with
       | Some v => zecho_add (" <" ++ v ++ ">")
       | None => undef
       end
     else ret tt)) ;;;
  realise_buf r (length (z_data z)) ;;;
  do* pos_e := tell in
  upd_snd (zl_set_size (pos_e - pos_b)) ;;;
  (if Z.testbit (z_echo z) 8 then
     zecho_res (sprintf 100 ("     zone size: " ++ fmt_fixed 1 (pos_e - pos_b) (2 ^ 20) ++ "MB"))
   else ret tt).

(** ** Files *)

Definition fl_set_zones (zs : list zone_log) (l : file_log) : file_log :=
  mkFL (fl_file l) zs (fl_begin l) (fl_end l) (fl_using l) (fl_size l) (fl_error l) (fl_echo l) (fl_json l) (fl_xml l).
Definition fl_set_error (m : string) (l : file_log) : file_log :=
  mkFL (fl_file l) (fl_zones l) (fl_begin l) (fl_end l) (fl_using l) (fl_size l) m (fl_echo l) (fl_json l) (fl_xml l).
Definition fl_set_echo (t : list string) (l : file_log) : file_log :=
  mkFL (fl_file l) (fl_zones l) (fl_begin l) (fl_end l) (fl_using l) (fl_size l) (fl_error l) t (fl_json l) (fl_xml l).
Definition fl_set_size (n : Z) (l : file_log) : file_log :=
  mkFL (fl_file l) (fl_zones l) (fl_begin l) (fl_end l) (fl_using l) n (fl_error l) (fl_echo l) (fl_json l) (fl_xml l).
Definition fl_set_using (u : Z) (l : file_log) : file_log :=
  mkFL (fl_file l) (fl_zones l) (fl_begin l) (fl_end l) u (fl_size l) (fl_error l) (fl_echo l) (fl_json l) (fl_xml l).
Definition fl_set_end (t : string) (l : file_log) : file_log :=
  mkFL (fl_file l) (fl_zones l) (fl_begin l) t (fl_using l) (fl_size l) (fl_error l) (fl_echo l) (fl_json l) (fl_xml l).
Definition fl_set_text (j x : list string) (l : file_log) : file_log :=
  mkFL (fl_file l) (fl_zones l) (fl_begin l) (fl_end l) (fl_using l) (fl_size l) (fl_error l) (fl_echo l) j x.

Definition fecho (s : string) : M (fs * file_log) unit := upd_snd (fun l => fl_set_echo (fl_echo l ++ [s])%list l).
Definition fecho_add (s : string) : M (fs * file_log) unit :=
  fun st => match add_last (fl_echo (snd st)) s with
            | Some t => Ret (fst st, fl_set_echo t (snd st)) tt
            | None => Undef
            end.
Definition fecho_res (r : res string) : M (fs * file_log) unit := do* s := lift r in fecho s.

(** Run a function on [last_log.Zones[i]]. *)
Definition on_zone {A} (i : nat) (m : M (fs * zone_log) A) : M (fs * file_log) A :=
  fun st => match nth_error (fl_zones (snd st)) i with
            | None => Undef
            | Some zl =>
                let back (s : fs * zone_log) : fs * file_log :=
                  match upd_nth i (fun _ => snd s) (fl_zones (snd st)) with
                  | Some zs => (fst s, fl_set_zones zs (snd st))
                  | None => (fst s, snd st)
                  end in
                match m (fst st, zl) with
                | Ret s a => Ret (back s) a
                | Thr s e => Thr (back s) e
                | Undef => Undef
                end
            end.

(** [err.what()] of the exceptions raised in ordered_tec.cpp *)
Definition what (e : exn) : string := match e with ETec m => m | _ => "" end.

(** [try { m } catch (const std::exception &err) { last_log.Error = p + err.what(); throw ... }]
    ordered_tec.cpp:589-597 and 717-726 *)
Definition catch_err {A} (p : string) (m : M (fs * file_log) A) : M (fs * file_log) A :=
  fun st => match m st with
            | Thr s e => Thr (fst s, fl_set_error (p ++ what e) (snd s)) (ETec (p ++ what e))
            | o => o
            end.

(** ordered_tec.cpp:715-727: the zones from number [i] on. *)
Fixpoint pre_zones (f : tfile) (i : nat) (l : list zone) : M (fs * file_log) (list real) :=
  match l with
  | [] => ret []
  | z :: l' =>
      do* r := catch_err ("File(" ++ f_name f ++ ").")
        (upd_snd (fun g => fl_set_zones (fl_zones g ++ [zone_log_of z])%list g) ;;;
         on_zone i (zone_pre (f_vars f) z)) in
      do* rs := pre_zones f (S i) l' in
      ret (r :: rs)
  end.

(** TEC_FILE::wrtie_plt_pre, ordered_tec.cpp:703-728 *)
Definition fail_with {A} (m : string) : M (fs * file_log) A :=
  upd_snd (fl_set_error m) ;;; throw (ETec m).
Definition file_pre (f : tfile) : M (fs * file_log) (list real) :=
  if (length (f_vars f) =? 0)%nat then fail_with ("File(" ++ f_name f ++ "): Variables is empty")
  else if (length (f_zones f) =? 0)%nat then fail_with ("File(" ++ f_name f ++ "): Zones is empty")
  else pre_zones f 0 (f_zones f).

(** "#!TDV112" *)
Definition magic : bytes := list_ascii_of_string "#!TDV112".

(** TEC_FILE::write_plt_head, ordered_tec.cpp:730-773 *)
Definition file_head (f : tfile) (rs : list real) : M (fs * file_log) unit :=
  put magic ;;;
  put (w_int 1) ;;;
  put (w_int (f_type f)) ;;;
  put (w_string (f_title f)) ;;;
  put (w_int (Z.of_nat (length (f_vars f)))) ;;;
  (if Z.testbit (f_echo f) 2 then fecho "     VAR:" else ret tt) ;;;
  for_each 0 (f_vars f) (fun _ v =>
    put (w_string v) ;;;
    (if Z.testbit (f_echo f) 2 then fecho_add (" <" ++ v ++ ">") else ret tt)) ;;;
  for_each 0 (combine (f_zones f) rs) (fun _ p => put (zone_head (fst p) (snd p))) ;;;
  for_each 0 (f_aux f) (fun _ p =>
    put (w_f32 F799) ;;; put (w_string (fst p)) ;;; put (w_int 0) ;;; put (w_string (snd p))).

(** TEC_FILE::write_plt_data, ordered_tec.cpp:775-800.  [int(i - Zones.begin() + 1)] *)
Definition zone_line (i : nat) (z : zone) : res string :=
  sprintf 100 ("--   write zone " ++ fmt_i (u2i (uwrap (Z.of_nat i + 1))) ++ ": " ++ c_str (z_name z) ++ "   --").
Definition file_data (e : env) (f : tfile) (rs : list real) : M (fs * file_log) unit :=
  for_each 0 (combine (f_zones f) rs) (fun i p =>
    let z := fst p in
    (if Z.testbit (z_echo z) 0 then fecho_res (zone_line i z) else ret tt) ;;;
    on_zone i (zone_data (f_vars f) (e_oom e i) z (snd p)) ;;;
    fecho "#ZONE#" ;;;
    (if Z.testbit (z_echo z) 1 then fecho_res (zone_line i z) else ret tt)).

(** ** The texts of the log *)

(** A line is put together from pieces; [Buf] goes through [char buf[200]]. *)
Inductive piece := Lit (s : string) | Buf (s : string).
Definition emit_piece (p : piece) : res string :=
  match p with Lit s => Ok s | Buf s => sprintf 200 s end.
Fixpoint emit_line (l : list piece) : res string :=
  match l with
  | [] => Ok ""
  | p :: l' => let* a := emit_piece p in let* b := emit_line l' in Ok (a ++ b)
  end.
Fixpoint emit (l : list (list piece)) : res (list string) :=
  match l with
  | [] => Ok []
  | x :: l' => let* a := emit_line x in let* b := emit l' in Ok (a :: b)
  end.

(** A list where every element but the last is marked. *)
Fixpoint marked {A} (l : list A) : list (A * bool) :=
  match l with
  | [] => []
  | [a] => [(a, false)]
  | a :: l' => (a, true) :: marked l'
  end.
Fixpoint numbered {A} (k : nat) (l : list A) : list (nat * A) :=
  match l with
  | [] => []
  | a :: l' => (k, a) :: numbered (S k) l'
  end.

(** A double quote. *)
Definition Q : string := """".

(** ordered_tec.cpp:221-235 and 459-473 *)
Definition aux_json (a : aux) : list (list piece) :=
  match a with
  | [] => []
  | _ =>
      ([ [Lit (TAB ++ Q ++ "Auxiliary" ++ Q ++ " : {")] ]
       ++ map (fun pm => let '(p, m) := pm in
            Buf (TAB ++ TAB ++ Q ++ c_str (fst p) ++ Q ++ " : " ++ Q ++ c_str (snd p) ++ Q)
            :: (if m : bool then [Lit ","] else [])) (marked a)
       ++ [ [Lit (TAB ++ "} ,")] ])%list
  end.

(** ordered_tec.cpp:273-282 and 512-521 *)
Definition aux_xml (a : aux) : list (list piece) :=
  match a with
  | [] => []
  | _ =>
      ([ [Lit (TAB ++ "<Auxiliary>")] ]
       ++ map (fun p =>
            [Buf (TAB ++ TAB ++ "<" ++ c_str (fst p) ++ ">" ++ c_str (snd p) ++ "</" ++ c_str (fst p) ++ ">")]) a
       ++ [ [Lit (TAB ++ "</Auxiliary>")] ])%list
  end.

(** [int(i->size)] *)
Definition sz2i (n : Z) : Z := u2i (uwrap n).

Definition json3 (name : string) (v : v3) : list piece :=
  [Buf (TAB ++ Q ++ name ++ Q ++ " : [ " ++ fmt_i (x0 v) ++ ", " ++ fmt_i (x1 v) ++ ", " ++ fmt_i (x2 v) ++ " ] ,")].
Definition xml3 (name : string) (v : v3) : list piece :=
  [Buf (TAB ++ "<" ++ name ++ "> <I>" ++ fmt_i (x0 v) ++ "</I> <J>" ++ fmt_i (x1 v) ++ "</J> <K>" ++ fmt_i (x2 v)
        ++ "</K> </" ++ name ++ ">")].

(** TEC_ZONE_LOG::gen_json, ordered_tec.cpp:437-488: the lines it appends *)
Definition zone_json (l : zone_log) : res (list string) :=
  let z := zl_zone l in
  let r := zl_real l in
  emit
   ([ [Lit "{"];
      [Buf (TAB ++ Q ++ "ZoneName" ++ Q ++ " : " ++ Q ++ c_str (z_name z) ++ Q ++ " ,")];
      [Buf (TAB ++ Q ++ "StrandId" ++ Q ++ " : " ++ fmt_i (z_strand z) ++ " ,")] ]
    ++ (if z_strand z =? -1 then []
        else [ [Buf (TAB ++ Q ++ "SolutionTime" ++ Q ++ " : " ++ fmt_le (z_time z) ++ " ,")] ])
    ++ [ [Buf (TAB ++ Q ++ "Org_Dim" ++ Q ++ " : " ++ fmt_i (r_dim r) ++ " ,")];
         [Buf (TAB ++ Q ++ "Real_Dim" ++ Q ++ " : " ++ fmt_i (r_rdim r) ++ " ,")];
         json3 "Org_Max" (z_max z); json3 "Skip" (z_skip z); json3 "Begin" (z_begin z);
         json3 "End" (z_end z); json3 "Real_Max" (r_max r) ]
    ++ aux_json (z_aux z)
    ++ [ [Lit (TAB ++ Q ++ "Data_type_comment" ++ Q ++ " : " ++ Q ++
               "1=Float, 2=Double, 3=LongInt, 4=ShortInt, 5=Byte, 6=Bit" ++ Q ++ " ,")];
         [Lit (TAB ++ Q ++ "Data" ++ Q ++ " : [")] ]
    ++ map (fun pm => let '(d, m) := pm in
         Buf (TAB ++ TAB ++ "{ " ++ Q ++ "type" ++ Q ++ ":" ++ fmt_i (dl_type d) ++ ", " ++
              Q ++ "size_i" ++ Q ++ ":" ++ fmt_i (sz2i (dl_size d)) ++ ", " ++
              Q ++ "file_pt" ++ Q ++ ":" ++ fmt_li (dl_pt d) ++ ", " ++
              Q ++ "min" ++ Q ++ ":" ++ fmt_le (dl_min d) ++ ", " ++
              Q ++ "max" ++ Q ++ ":" ++ fmt_le (dl_max d) ++ " }")
         :: (if m : bool then [Lit ","] else [])) (marked (zl_data l))
    ++ [ [Lit (TAB ++ "]")]; [Lit "}"] ])%list.

(** TEC_ZONE_LOG::gen_xml, ordered_tec.cpp:490-532: the lines it appends *)
Definition zone_xml (l : zone_log) : res (list string) :=
  let z := zl_zone l in
  let r := zl_real l in
  emit
   ([ [Buf ("<Zone ZoneName=" ++ Q ++ c_str (z_name z) ++ Q ++ ">")];
      [Buf (TAB ++ "<ZoneName>" ++ c_str (z_name z) ++ "</ZoneName>")];
      [Buf (TAB ++ "<StrandId>" ++ fmt_i (z_strand z) ++ "</StrandId>")] ]
    ++ (if z_strand z =? -1 then []
        else [ [Buf (TAB ++ "<SolutionTime>" ++ fmt_le (z_time z) ++ "</SolutionTime>")] ])
    ++ [ [Buf (TAB ++ "<Org_Dim>" ++ fmt_i (r_dim r) ++ "</Org_Dim>")];
         [Buf (TAB ++ "<Real_Dim>" ++ fmt_i (r_rdim r) ++ "</Real_Dim>")];
         xml3 "Org_Max" (z_max z); xml3 "Skip" (z_skip z); xml3 "Begin" (z_begin z);
         xml3 "End" (z_end z); xml3 "Real_Max" (r_max r) ]
    ++ aux_xml (z_aux z)
    ++ [ [Lit (TAB ++ "<!--1=Float, 2=Double, 3=LongInt, 4=ShortInt, 5=Byte, 6=Bit-->")];
         [Lit (TAB ++ "<Datas>")] ]
    ++ map (fun kd => let '(k, d) := kd in
         [Buf (TAB ++ TAB ++ "<Data_" ++ fmt_i (sz2i (Z.of_nat k)) ++ " type=" ++ Q ++ fmt_i (dl_type d) ++ Q ++
               " size_i=" ++ Q ++ fmt_i (sz2i (dl_size d)) ++ Q ++ " file_pt=" ++ Q ++ fmt_li (dl_pt d) ++ Q ++
               " min=" ++ Q ++ fmt_le (dl_min d) ++ Q ++ " max=" ++ Q ++ fmt_le (dl_max d) ++ Q ++ "/>")])
         (numbered 0 (zl_data l))
    ++ [ [Lit (TAB ++ "</Datas>")]; [Lit "</Zone>"] ])%list.

(** Line reserved for a zone. *)
Definition ZONE_LINE : string := "#ZONE#".

(** TEC_FILE_LOG::gen_json, ordered_tec.cpp:195-248: the lines it appends to the file's text *)
Definition file_json (l : file_log) : res (list string) :=
  let f := fl_file l in
  emit
   ([ [Lit "{"];
      [Buf (TAB ++ Q ++ "FileName" ++ Q ++ " : " ++ Q ++ c_str (f_name f ++ ".plt") ++ Q ++ " ,")];
      [Buf (TAB ++ Q ++ "FilePath" ++ Q ++ " : " ++ Q ++ c_str (f_path f) ++ Q ++ " ,")];
      [Buf (TAB ++ Q ++ "Time" ++ Q ++ " : " ++ Q ++ c_str (fl_begin l) ++ Q ++ " ,")];
      [Buf (TAB ++ Q ++ "UsingTime" ++ Q ++ " : " ++ fmt_lf 5 (fl_using l) ++ " ,")];
      [Buf (TAB ++ Q ++ "Title" ++ Q ++ " : " ++ Q ++ c_str (f_title f) ++ Q ++ " ,")];
      [Lit (TAB ++ Q ++ "FileType_comment" ++ Q ++ " : " ++ Q ++ "0 = FULL, 1 = GRID, 2 = SOLUTION" ++ Q ++ " ,")];
      [Buf (TAB ++ Q ++ "FileType" ++ Q ++ " : " ++ fmt_i (f_type f) ++ " ,")];
      Lit (TAB ++ Q ++ "Variables" ++ Q ++ " : [ ")
        :: flat_map (fun vm => let '(v, m) := vm in
             Buf (Q ++ c_str v ++ Q) :: (if m : bool then [Lit ", "] else [])) (marked (f_vars f))
        ++ [Lit " ] ,"] ]
    ++ aux_json (f_aux f)
    ++ [ [Lit (TAB ++ Q ++ "Zones" ++ Q ++ " : [")] ]
    ++ flat_map (fun zm => [Lit ZONE_LINE] :: (if (snd zm) : bool then [ [Lit (TAB ++ TAB ++ ",")] ] else []))
         (marked (fl_zones l))
    ++ [ [Lit (TAB ++ "]")]; [Lit "}"] ])%list.

(** TEC_FILE_LOG::gen_xml, ordered_tec.cpp:250-292: the lines it appends to the file's text *)
Definition file_xml (l : file_log) : res (list string) :=
  let f := fl_file l in
  emit
   ([ [Buf ("<File FileName=" ++ Q ++ c_str (f_name f) ++ Q ++ ">")];
      [Buf (TAB ++ "<FileName>" ++ c_str (f_name f ++ ".plt") ++ "</FileName>")];
      [Buf (TAB ++ "<FilePath>" ++ c_str (f_path f) ++ "</FilePath>")];
      [Buf (TAB ++ "<Time>" ++ c_str (fl_begin l) ++ "</Time>")];
      [Buf (TAB ++ "<UsingTime>" ++ fmt_lf 5 (fl_using l) ++ "</UsingTime>")];
      [Buf (TAB ++ "<Title>" ++ c_str (f_title f) ++ "</Title>")];
      [Buf (TAB ++ "<!--0 = FULL, 1 = GRID, 2 = SOLUTION-->")];
      [Buf (TAB ++ "<FileType>" ++ fmt_i (f_type f) ++ "</FileType>")];
      Lit (TAB ++ "<Variables>")
        :: map (fun kv => let '(k, v) := kv in
             Buf (" <" ++ c_str v ++ " i=" ++ Q ++ fmt_i (sz2i (Z.of_nat k)) ++ Q ++ "/>")) (numbered 0 (f_vars f))
        ++ [Lit " </Variables>"] ]
    ++ aux_xml (f_aux f)
    ++ [ [Lit (TAB ++ "<Zones>")] ]
    ++ map (fun _ => [Lit ZONE_LINE]) (fl_zones l)
    ++ [ [Lit (TAB ++ "</Zones>")]; [Lit "</File>"] ])%list.

(** The calls [last_log.gen_json(); last_log.gen_xml();], ordered_tec.cpp:670-671, with the
    calls of the zones' functions inside. *)
Fixpoint map_res {A B} (f : A -> res B) (l : list A) : res (list B) :=
  match l with
  | [] => Ok []
  | a :: l' => let* b := f a in let* r := map_res f l' in Ok (b :: r)
  end.
Definition gen_zone (l : zone_log) : res zone_log :=
  let* j := zone_json l in
  let* x := zone_xml l in
  Ok (zl_set_text (zl_json l ++ j)%list (zl_xml l ++ x)%list l).
Definition gen_texts (l : file_log) : res file_log :=
  let* zs := map_res gen_zone (fl_zones l) in
  let* j := file_json l in
  let* x := file_xml l in
  Ok (fl_set_text (fl_json l ++ j)%list (fl_xml l ++ x)%list (fl_set_zones zs l)).

(** ** write_plt *)

(** ordered_tec.cpp:598-614 and 651-668 *)
Definition file_line (f : tfile) : string := "#### creat file " ++ f_path f ++ "/" ++ f_name f ++ ".plt ####".
Definition file_echo (f : tfile) (bit : Z) (time : string) : M (fs * file_log) unit :=
  if Z.testbit (f_echo f) bit then
    if Z.testbit (f_echo f) 5 then
      fecho ("[" ++ time ++ "] ") ;;; fecho_add (file_line f)
    else fecho (file_line f)
  else ret tt.

(** liton_sp::file::open_file_c(..., "wb"), lion_snippets.hpp:23-41 with the handler
    of ordered_tec.cpp:593-597 *)
Definition open_wb (e : env) (f : tfile) : M (fs * file_log) unit :=
  catch_err "" (fun st =>
    if e_open e then Ret (mkFs (Some []) true (live (fst st)), snd st) tt
    else Thr st (ETec ("can not open file " ++ f_path f ++ "/" ++ f_name f ++ ".plt"))).
Definition close : M (fs * file_log) unit :=
  fun st => Ret (mkFs (disk (fst st)) false (live (fst st)), snd st) tt.

(** TEC_FILE_LOG::TEC_FILE_LOG(file), ordered_tec.cpp:59, and the assignment of Time_Begin.
    UsingTime and Size are unset (zeros here). *)
Definition file_log_of (e : env) (f : tfile) : file_log := mkFL f [] (e_begin e) "" 0 0 "" [] [] [].

(** TEC_FILE::write_plt, ordered_tec.cpp:578-672.  The state starts with
    [last_log] as just assigned. *)
Definition write_plt_body (e : env) (f : tfile) : M (fs * file_log) unit :=
  do* rs := file_pre f in
  open_wb e f ;;;
  file_echo f 0 (e_begin e) ;;;
  file_head f rs ;;;
  put (w_f32 F357) ;;;
  (if Z.testbit (f_echo f) 3 then fecho "-------------------------------------" else ret tt) ;;;
  file_data e f rs ;;;
  do* pos := tell in
  upd_snd (fl_set_size pos) ;;;
  (if Z.testbit (f_echo f) 4 then
     fecho_res (sprintf 100 ("     file size: " ++ fmt_fixed 1 pos (2 ^ 20) ++ " MB")) else ret tt) ;;;
  close ;;;
  upd_snd (fl_set_using (e_using e)) ;;;
  (if Z.testbit (f_echo f) 6 then
     fecho_res (sprintf 100 ("     using time : " ++ fmt_lf 5 (e_using e) ++ " s")) else ret tt) ;;;
  upd_snd (fl_set_end (e_end e)) ;;;
  file_echo f 1 (e_end e) ;;;
  do* l := get_snd in
  do* l' := lift (gen_texts l) in
  upd_snd (fun _ => l').
Definition write_plt (e : env) (f : tfile) : out (fs * file_log) unit :=
  write_plt_body e f (mkFs None false 0, file_log_of e f).

(** ** Writing the texts *)

(** [of << s << std::endl] with [depth] tabulators before. *)
Definition line_out (depth : nat) (s : string) : string :=
  String.concat "" (repeat TAB depth) ++ c_str s ++ NL.

(** TEC_ZONE_LOG::write_echo/json/xml(of, depth), ordered_tec.cpp:311-317, 331-341 and 356-366 *)
Definition zone_text_out (depth : nat) (t : list string) : string :=
  String.concat "" (map (line_out depth) t).

(** TEC_FILE_LOG::write_echo/json/xml(of, depth), ordered_tec.cpp:73-88, 102-122 and
    137-157.  [zs]: the zones from the iterator on; past the end is undefined.
    A negative [depth] (a loop which does not end) is not modelled. *)
Fixpoint file_text_out (zdepth depth : nat) (zt : zone_log -> list string) (zs : list zone_log) (t : list string)
  : res string :=
  match t with
  | [] => Ok ""
  | s :: t' =>
      if String.eqb s ZONE_LINE then
        match zs with
        | [] => UB
        | z :: zs' =>
            let* r := file_text_out zdepth depth zt zs' t' in
            Ok (zone_text_out zdepth (zt z) ++ r)
        end
      else
        let* r := file_text_out zdepth depth zt zs t' in
        Ok (line_out depth s ++ r)
  end.
Definition write_echo (l : file_log) : res string := file_text_out 0 0 zl_echo (fl_zones l) (fl_echo l).
Definition write_json (l : file_log) (depth : nat) : res string :=
  file_text_out (depth + 2) depth zl_json (fl_zones l) (fl_json l).
Definition write_xml (l : file_log) (depth : nat) : res string :=
  file_text_out (depth + 2) depth zl_xml (fl_zones l) (fl_xml l).

(** ** Auxiliary data *)

(** Order of [std::string]: lexicographic on unsigned characters. *)
Fixpoint str_lt (a b : string) : bool :=
  match a, b with
  | _, "" => false
  | "", _ => true
  | String c a', String d b' => if b2z c <? b2z d then true else if b2z d <? b2z c then false else str_lt a' b'
  end.

(** [std::map::insert] *)
Fixpoint aux_insert (a : aux) (k v : string) : aux * bool :=
  match a with
  | [] => ([(k, v)], true)
  | (k', v') :: a' =>
      if str_lt k k' then ((k, v) :: a, true)
      else if str_lt k' k then let '(r, b) := aux_insert a' k v in ((k', v') :: r, b)
      else (a, false)
  end.

(** [std::map::find] *)
Fixpoint aux_find (a : aux) (k : string) : option string :=
  match a with
  | [] => None
  | (k', v') :: a' => if String.eqb k k' then Some v' else aux_find a' k
  end.

(** TEC_FILE::add_auxiliary_data and TEC_ZONE::add_auxiliary_data, ordered_tec.cpp:548-561 and
    843-856.  A [double] is given by its bit pattern and printed into [char buf[200]]. *)
Definition add_auxiliary_data (a : aux) (name value : string) : aux * bool := aux_insert a name value.
Definition add_auxiliary_double (a : aux) (name : string) (value : Z) : res (aux * bool) :=
  let* s := sprintf 200 (fmt_lf 6 value) in Ok (add_auxiliary_data a name s).

(** get_auxiliary_data, ordered_tec.h:76-87 and 114-125, up to the conversion of the text ([tran >> data]).
    [what] is "file" or "zone". *)
Definition get_auxiliary_data (what owner : string) (a : aux) (name : string) : res string :=
  match aux_find a name with
  | None => Err (ETec ("can not find data [" ++ name ++ "] in auxiliary data of " ++ what ++ " [" ++ owner ++ "]"))
  | Some v => Ok v
  end.

(** ** Echo modes *)

(** [std::bitset<N>(s)]: the text is the bits from the highest down; if longer than [N], its first
    [N] characters.  [strict] (the C++ standard): every character must be 0 or 1, otherwise
    std::invalid_argument; not strict (libstdc++): only the characters used are looked at. *)
Fixpoint bits_of (s : string) (acc : Z) : option Z :=
  match s with
  | "" => Some acc
  | String c s' =>
      if b2z c =? 48 then bits_of s' (2 * acc)
      else if b2z c =? 49 then bits_of s' (2 * acc + 1)
      else None
  end.
Definition bitset (strict : bool) (N : nat) (s : string) : option Z :=
  match bits_of s 0 with
  | None => if strict then None else bits_of (substring 0 N s) 0
  | Some _ => bits_of (substring 0 N s) 0
  end.

(** TEC_FILE::echo_mode, ordered_tec.cpp:674-701 *)
Definition file_code (s : string) : string :=
  if String.eqb s "brief" then "0100111"
  else if String.eqb s "full" then "1111111"
  else if String.eqb s "simple" then "0100001"
  else if String.eqb s "none" then "0000000"
  else s.
Definition file_echo_mode (strict : bool) (f : tfile) (s : string) : res tfile :=
  match bitset strict 7 (file_code s) with
  | Some b => Ok (mkFile (f_path f) (f_name f) (f_title f) (f_vars f) (f_type f) (f_aux f) (f_zones f) b)
  | None => Err (ETec ("File(" ++ f_name f ++ "): echo code wrong"))
  end.

(** TEC_ZONE::echo_mode, ordered_tec.cpp:858-885 *)
Definition zone_code (s : string) : string :=
  if String.eqb s "brief" then "000001001"
  else if String.eqb s "full" then "111111111"
  else if String.eqb s "simple" then "000000001"
  else if String.eqb s "none" then "000000000"
  else s.
Definition zone_echo_mode (strict : bool) (z : zone) (s : string) : res zone :=
  match bitset strict 9 (zone_code s) with
  | Some b => Ok (mkZone (z_name z) (z_strand z) (z_time z) (z_max z) (z_skip z) (z_begin z) (z_end z)
                         (z_aux z) (z_data z) b)
  | None => Err (ETec ("Zone(" ++ z_name z ++ "): echo code wrong"))
  end.

(** ordered_tec.cpp:571-574: the zones from the current one on; those before are done. *)
Fixpoint zones_echo_mode (strict : bool) (done todo : list zone) (s : string) : out (list zone) unit :=
  match todo with
  | [] => Ret done tt
  | z :: r =>
      match zone_echo_mode strict z s with
      | Ok z' => zones_echo_mode strict (done ++ [z'])%list r s
      | Err e => Thr (done ++ todo)%list e
      | UB => Undef
      end
  end.

(** TEC_FILE::set_echo_mode, ordered_tec.cpp:563-576; the state is the TEC_FILE. *)
Definition set_zones (f : tfile) (zs : list zone) : tfile :=
  mkFile (f_path f) (f_name f) (f_title f) (f_vars f) (f_type f) (f_aux f) zs (f_echo f).
Definition set_echo_mode (strict : bool) (file zone : string) : M tfile unit :=
  (if String.eqb file "leave" then ret tt
   else fun f => match file_echo_mode strict f file with
                 | Ok f' => Ret f' tt
                 | Err e => Thr f e
                 | UB => Undef
                 end) ;;;
  (if String.eqb zone "leave" then ret tt
   else fun f => match zones_echo_mode strict [] (f_zones f) zone with
                 | Ret zs _ => Ret (set_zones f zs) tt
                 | Thr zs e => Thr (set_zones f zs) e
                 | Undef => Undef
                 end).

(** TEC_FILE::TEC_FILE and TEC_ZONE::TEC_ZONE, ordered_tec.cpp:538-546 and 802-823.
    0.0f converted to [double] is the pattern 0. *)
Definition new_file (name path title : string) : tfile := mkFile path name title [] 0 [] [] 39.
Definition new_zone (name : string) : zone :=
  mkZone name (-1) 0 (mk3 1 1 1) (mk3 1 1 1) (mk3 0 0 0) (mk3 0 0 0) [] [] 9.
