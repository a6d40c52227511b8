(** Output of arrays: TEC_DATA objects that point into the memory of a program, and write_plt of a description made of
    them. *)

From Coq Require Import ZArith String List Bool.
From Verif Require Import Base M_Bytes M_TecZone M_TecFile M_Heap.
Import ListNotations.
Open Scope Z_scope.

(** TEC_DATA with the pointer itself, ordered_tec.h:169-180 and 487-512.  ([tdata] of M_TecZone.v has the memory the
    pointer points to in its place.) *)
Record tref := mkRef { rf_type : Z; rf_size : Z; rf_ptr : ptr }.

(** TEC_DATA::TEC_DATA(T *iDataP), ordered_tec.h:520-559.  Only the pointer is kept, the data are not looked at. *)
Definition ref_of (t : ctype) (p : ptr) : res tref :=
  let* d := data_of t None in Ok (mkRef (d_type d) (d_size d) p).

Section Output.
Context {V : Type}.
(** The bytes of a value of the element type; the bytes an element has that was never assigned (element [i] of block [b]). *)
Variables (enc : V -> bytes) (junk : nat -> Z -> bytes).

Definition cell_bytes (b : nat) (i : Z) (c : cell V) : bytes := match c with CVal v => enc v | _ => junk b i end.
Fixpoint cells_bytes (b : nat) (i : Z) (cs : list (cell V)) : bytes :=
  match cs with [] => [] | c :: cs' => (cell_bytes b i c ++ cells_bytes b (i + 1) cs')%list end.

(** The bytes that can be read from [p] on, up to the end of its block.  None can be read through a pointer whose block
    was deleted. *)
Definition pointee (m : mem V) (p : ptr) : option bytes :=
  match p with
  | Null => None
  | Ptr b off =>
      match block m b with
      | Some cs => if 0 <=? off then Some (cells_bytes b off (skipn (Z.to_nat off) cs)) else Some []
      | None => Some []
      end
  | Wild => Some []
  end.

(** The TEC_DATA, the zones and the file as write_plt finds them in memory [m]; [rs i] are the TEC_DATA in the vector Data of
    zone [i], ordered_tec.h:422. *)
Definition resolve (m : mem V) (r : tref) : tdata := mkData (rf_type r) (rf_size r) (pointee m (rf_ptr r)).
Definition fill_zone (m : mem V) (z : zone) (rs : list tref) : zone :=
  mkZone (z_name z) (z_strand z) (z_time z) (z_max z) (z_skip z) (z_begin z) (z_end z) (z_aux z) (map (resolve m) rs) (z_echo z).
Fixpoint fill_zones (m : mem V) (i : nat) (zs : list zone) (rs : nat -> list tref) : list zone :=
  match zs with [] => [] | z :: zs' => fill_zone m z (rs i) :: fill_zones m (S i) zs' rs end.
Definition fill (m : mem V) (f : tfile) (rs : nat -> list tref) : tfile :=
  mkFile (f_path f) (f_name f) (f_title f) (f_vars f) (f_type f) (f_aux f) (fill_zones m 0 (f_zones f) rs) (f_echo f).

(** TEC_FILE::write_plt, ordered_tec.cpp:578-672.  It changes nothing in [m]. *)
Definition write_refs (e : env) (m : mem V) (f : tfile) (rs : nat -> list tref) : out (fs * file_log) unit :=
  write_plt e (fill m f rs).
End Output.
