(** read_plt: reading a variable of a .plt file into a component of an array.
    PointData_1D.hpp:504-574, PointData_2D.hpp:646-724, PointData_3D.hpp:795-881. *)

From Coq Require Import ZArith Ascii String List Bool.
From Verif Require Import Base M_Flags M_Loop M_RS1 M_RS2 M_RS3 M_Heap M_PD1 M_PD2 M_PD3 M_Class
  M_Bytes M_TecZone M_TecFile.
Import ListNotations.
Open Scope Z_scope.

(** The files that can be opened for reading and what they contain, by path. *)
Definition files := string -> option bytes.

(** [std::find(Variables.begin(), Variables.end(), name) - Variables.begin()],
    PointData_1D.hpp:519 (2D :663, 3D :814). *)
Fixpoint find_var (vars : list string) (name : string) : nat :=
  match vars with
  | [] => O
  | v :: vars' => if String.eqb v name then O else S (find_var vars' name)
  end.

Section Read.
Context {V : Type}.
Variable chk : bool.
(** Conversion of a [float] (4 bytes) and of a [double] (8 bytes) to [_NUMT]; [None]: undefined
    (a number that does not fit an integer type, say). *)
Variables of_float of_double : bytes -> option V.

(** Memory, and the number of live [char] buffers. *)
Notation ST := (mem V * Z)%type.

(** [new char[n]]: a request for memory.  A size above the largest object size always
    fails. *)
Definition buf_new (n : Z) : M ST unit :=
  fun st =>
    let '(m, live) := st in
    let m' := mkMem (blocks m) (fails m) (S (tick m)) in
    if fails m (tick m) || (2 ^ 63 <=? n) then Thr (m', live) EBadAlloc
    else Ret (m', live + 1) tt.
(** [delete []buf] *)
Definition buf_delete : M ST unit := upd_snd (fun live => live - 1).

(** [open], [seekg(pos)] and the check behind, PointData_1D.hpp:526-532 (2D :670-676, 3D :821-827).
    A negative position is refused by the file system; one behind the end is not. *)
Definition open_at (fs : files) (path : string) (pos : Z) : M ST bytes :=
  match fs path with
  | Some b => if pos <? 0 then throw EOpen else ret b
  | None => throw EOpen
  end.

(** [new char[n]] and [data_in.read(buf, n)] with their checks, PointData_1D.hpp:533-550
    (2D :677-694, 3D :828-845): the [n] bytes at [pos]. *)
Definition read_bytes (b : bytes) (pos n : Z) : M ST bytes :=
  catch_bad_alloc (buf_new n) (throw ENoMem) ;;;
  if (n =? 0) || (pos + n <=? Z.of_nat (length b)) then ret (firstn (Z.to_nat n) (skipn (Z.to_nat pos) b))
  else buf_delete ;;; throw ERead.

(** [temp[i]] of a [float] ([w] = 4) or [double] ([w] = 8) pointer into the buffer, converted. *)
Definition temp_at (w : Z) (conv : bytes -> option V) (buf : bytes) (i : Z) : res V :=
  if i * w + w <=? Z.of_nat (length buf) then
    match conv (firstn (Z.to_nat w) (skipn (Z.to_nat (i * w)) buf)) with Some v => Ok v | None => UB end
  else UB.

(** The branches on the type, PointData_1D.hpp:552-573 (2D :696-723, 3D :847-880); [loop get]
    is the loop nest, [get i] standing for [temp[i]]. *)
Definition by_type (type : Z) (buf : bytes) (loop : (Z -> res V) -> M (mem V) unit) : M ST unit :=
  if type =? 1 then on_fst (loop (temp_at 4 of_float buf)) ;;; buf_delete
  else if type =? 2 then on_fst (loop (temp_at 8 of_double buf)) ;;; buf_delete
  else buf_delete ;;; throw ETecType.

(** [lvalue = temp[i]] *)
Definition put_temp (lval : mem V -> res ptr) (x : res V) : M (mem V) unit :=
  do* v := lift x in
  do* p := gets lval in
  store p (CVal v).

(** PointData_1D.hpp:519-573 (2D :663-723, 3D :814-880): everything behind the check of the sizes.
    [cnt] is the product of the [N_file] in [unsigned]; [Data[vv]] must exist. *)
Definition read_var (fs : files) (root : string) (log : file_log) (z : zone_log) (name : string) (cnt : Z)
    (loop : (Z -> res V) -> M (mem V) unit) : M ST unit :=
  let vars := f_vars (fl_file log) in
  let vv := find_var vars name in
  if Nat.eqb vv (length vars) then throw EVarNotFound else
  let path := c_str (root ++ "/" ++ f_name (fl_file log) ++ ".plt")%string in
  do* d := lift (match nth_error (zl_data z) vv with Some d => Ok d | None => UB end) in
  do* b := open_at fs path (dl_pt d) in
  do* buf := read_bytes b (dl_pt d) (szmul cnt (dl_size d)) in
  by_type (dl_type d) buf loop.

(** [teclog.Zones[zone]] behind its check, PointData_1D.hpp:508-512 (2D :650-654, 3D :799-803);
    [zone] is [unsigned]. *)
Definition log_zone (log : file_log) (zone : Z) : res zone_log :=
  if Z.of_nat (length (fl_zones log)) <=? zone then Err EZoneTooBig
  else match nth_error (fl_zones log) (Z.to_nat zone) with Some z => Ok z | None => UB end.

(** [Real_Max_C(DIM, d)] converted to [unsigned], ordered_tec.h:160 *)
Definition n_file (z : zone_log) (DIM d : Z) : res Z :=
  let* x := v3_get (r_max (zl_real z)) (uwrap (DIM - 1 - d)) in Ok (i2u x).

(** The check of one size, PointData_1D.hpp:515 (2D :658-659, 3D :808-810). *)
Definition bad_size (nf iin : Z) : bool := (i2u iin <? nf) || (nf =? 0).

(** PointData_1D.hpp:504-574 *)
Definition read_plt1 (N : Z) (fs : files) (root : string) (log : file_log) (zone : Z) (name : string) (nn : Z)
    (o : pd1) : M ST unit :=
  lift (check_n chk N nn) ;;;
  do* z := lift (log_zone log zone) in
  do* n0 := lift (n_file z 1 0) in
  if bad_size n0 (s1_in (pd1_size o)) then throw EFileSize else
  read_var fs root log z name n0 (fun temp =>
    for_uint 0 n0 (fun ii => put_temp (fun m => lval1 m o nn ii) (temp ii))).

(** PointData_2D.hpp:646-724 *)
Definition read_plt2 (N : Z) (fs : files) (root : string) (log : file_log) (zone : Z) (name : string) (nn : Z)
    (o : pd2) : M ST unit :=
  lift (check_n chk N nn) ;;;
  do* z := lift (log_zone log zone) in
  do* n0 := lift (n_file z 2 0) in
  do* n1 := lift (n_file z 2 1) in
  if bad_size n0 (fst (s2_in (pd2_size o))) || bad_size n1 (snd (s2_in (pd2_size o))) then throw EFileSize else
  read_var fs root log z name (umul n0 n1) (fun temp =>
    for_uint 0 n0 (fun ii =>
      for_uint 0 n1 (fun jj =>
        put_temp (fun m => lval2 m o nn ii jj) (temp (uadd (umul ii n1) jj))))).

(** PointData_3D.hpp:795-881 *)
Definition read_plt3 (N : Z) (fs : files) (root : string) (log : file_log) (zone : Z) (name : string) (nn : Z)
    (o : pd3) : M ST unit :=
  lift (check_n chk N nn) ;;;
  do* z := lift (log_zone log zone) in
  do* n0 := lift (n_file z 3 0) in
  do* n1 := lift (n_file z 3 1) in
  do* n2 := lift (n_file z 3 2) in
  if bad_size n0 (c0 (s3_in (pd3_size o))) || bad_size n1 (c1 (s3_in (pd3_size o)))
     || bad_size n2 (c2 (s3_in (pd3_size o))) then throw EFileSize else
  read_var fs root log z name (umul (umul n0 n1) n2) (fun temp =>
    for_uint 0 n0 (fun ii =>
      for_uint 0 n1 (fun jj =>
        for_uint 0 n2 (fun kk =>
          put_temp (fun m => lval3 m o nn ii jj kk) (temp (uadd (uadd (umul (umul ii n1) n2) (umul jj n2)) kk)))))).

(** The three classes under one name, as in M_Class.v. *)
Definition m_read_plt (k : kind) (fs : files) (root : string) (log : file_log) (zone : Z) (name : string) (nn : Z)
    (o : obj) : M ST unit :=
  match k, o with
  | K1 N _, O1 o => read_plt1 N fs root log zone name nn o
  | K2 N _ _, O2 o => read_plt2 N fs root log zone name nn o
  | K3 N _ _ _, O3 o => read_plt3 N fs root log zone name nn o
  | _, _ => undef
  end.

End Read.
