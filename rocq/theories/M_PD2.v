(** PointData in two dimensions: scr/liton_point_data/PointData_2D.hpp:328-643. *)

From Coq Require Import ZArith List Bool String.
From Verif Require Import Base M_Flags M_Loop M_RS1 M_RS2 M_Heap M_PD1.
Import ListNotations.
Open Scope Z_scope.

(** PointData_2D.hpp:337-340, the data members. *)
Record pd2 := mkPD2 { pd2_size : sizeT2; pd2_data : ptr; pd2_pt0 : list ptr; pd2_pt1 : ptr }.

Section PD2.
Context {V : Type}.
Variable chk : bool.
(** the template parameters [_N], [_LOC0], [_LOC1] *)
Variable N : Z.
Variables l0 l1 : loc.

Notation mem := (mem V).
Notation ST := (mem * pd2)%type.

Definition set_size2 (s : sizeT2) : M ST unit :=
  upd_snd (fun o => mkPD2 s (pd2_data o) (pd2_pt0 o) (pd2_pt1 o)).
Definition set_data2 (p : ptr) : M ST unit :=
  upd_snd (fun o => mkPD2 (pd2_size o) p (pd2_pt0 o) (pd2_pt1 o)).
Definition set_pt1_2 (p : ptr) : M ST unit :=
  upd_snd (fun o => mkPD2 (pd2_size o) (pd2_data o) (pd2_pt0 o) p).
(** [pt0[n] = p] *)
Definition set_pt0_2 (n : Z) (p : ptr) : M ST unit :=
  do* o := get_snd in
  do* l := lift (arr_set (pd2_pt0 o) n p) in
  upd_snd (fun o => mkPD2 (pd2_size o) (pd2_data o) l (pd2_pt1 o)).

(** The members before the constructor body runs (PointData_2D.hpp:337-340). *)
Definition blank2 : pd2 := mkPD2 size0_2 Null (repeat Wild (Z.to_nat N)) Null.

(** PointData_2D.hpp:461-472, the default constructor. *)
Definition ctor2 : M ST unit :=
  if N =? 0 then throw ENZero else
  for_uint 0 N (fun n => set_pt0_2 n Null).

(** PointData_2D.hpp:498-541, [alloc].  The expressions
    [s.size(0, RA::ALL) + _LOC0] and [s.size(1, RA::ALL) + _LOC1], which the
    source repeats, are evaluated once, as [P0] and [P1] ([s] does not change).
    [pt0[n] = ...; pt0[n][ii] += s.n(1)] are separate steps as in the source. *)
Definition alloc2 (n0 iin0 p0 n1 iin1 p1 : Z) : M ST unit :=
  do* o := get_snd in
  if negb (is_null (pd2_data o)) then throw EAllocNotEmpty else
  let s := mk_sizeT2 n0 iin0 p0 n1 iin1 p1 in
  lift (scheck2 s) ;;;
  do* z0 := lift (ssize2 chk s 0 RALL) in
  do* z1 := lift (ssize2 chk s 1 RALL) in
  let P0 := uadd z0 (loc_val l0) in
  let P1 := uadd z1 (loc_val l1) in
  let size_point := umul P0 P1 in
  if negb (size_point =? 0) then
    catch_bad_alloc (
      do* d := on_fst (hnew (umul size_point N)) in
      set_data2 d ;;;
      set_size2 s ;;;
      do* t := on_fst (hnew (umul N P0)) in
      set_pt1_2 t ;;;
      for_uint 0 N (fun n =>
        do* o := get_snd in
        do* q := on_fst (gets (fun m => padd m (pd2_pt1 o) (umul n P0))) in
        set_pt0_2 n q ;;;
        for_uint 0 P0 (fun ii =>
          do* o := get_snd in
          (* pt0[n][ii] = data + n * P0 * P1 + ii * P1; *)
          do* a := on_fst (gets (fun m => padd m (pd2_data o) (umul (umul n P0) P1))) in
          do* a := on_fst (gets (fun m => padd m a (umul ii P1))) in
          do* c := on_fst (gets (fun m => let* q := arr_get (pd2_pt0 o) n in pidx m q ii)) in
          on_fst (store c (CPtr a)) ;;;
          (* pt0[n][ii] += s.n(1); *)
          do* nn := lift (sn2 chk s 1) in
          do* c := on_fst (gets (fun m => let* q := arr_get (pd2_pt0 o) n in pidx m q ii)) in
          do* a := on_fst (gets (fun m => let* a := load_ptr m c in padd m a nn)) in
          on_fst (store c (CPtr a))) ;;;
        (* pt0[n] += s.n(0); *)
        do* o := get_snd in
        do* nn := lift (sn2 chk s 0) in
        do* q := on_fst (gets (fun m => let* q := arr_get (pd2_pt0 o) n in padd m q nn)) in
        set_pt0_2 n q))
      (throw ENoMem)
  else ret tt.

(** PointData_2D.hpp:474-487, the constructor with a shape. *)
Definition ctor2_sized (n0 iin0 p0 n1 iin1 p1 : Z) : M ST unit :=
  if N =? 0 then throw ENZero else
  for_uint 0 N (fun k => set_pt0_2 k Null) ;;;
  alloc2 n0 iin0 p0 n1 iin1 p1.

(** PointData_2D.hpp:552-567, [clear]; [pt0] keeps its (now dangling) pointers. *)
Definition clear2 : M ST unit :=
  do* o := get_snd in
  if is_null (pd2_data o) then throw EClearEmpty else
  on_fst (hdelete (pd2_data o)) ;;;
  set_data2 Null ;;;
  on_fst (hdelete (pd2_pt1 o)) ;;;
  set_pt1_2 Null ;;;
  set_size2 size0_2.

(** PointData_2D.hpp:543-550, [realloc]. *)
Definition realloc2 (n0 iin0 p0 n1 iin1 p1 : Z) : M ST unit :=
  lift (scheck2 (mk_sizeT2 n0 iin0 p0 n1 iin1 p1)) ;;;
  clear2 ;;;
  alloc2 n0 iin0 p0 n1 iin1 p1.

(** PointData_2D.hpp:489-496, the destructor. *)
Definition dtor2 : M ST unit :=
  do* o := get_snd in
  if negb (is_null (pd2_data o)) then clear2 else ret tt.

(** The subscript expression [pt0[n][i][j]] as an lvalue (PointData_2D.hpp:369, :597, :639). *)
Definition lval2 (m : mem) (o : pd2) (n i j : Z) : res ptr :=
  let* p := arr_get (pd2_pt0 o) n in
  let* c := pidx m p i in
  let* q := load_ptr m c in
  pidx m q j.

(** PointData_2D.hpp:361-380, [operator()]. *)
Definition at2 (m : mem) (o : pd2) (n i j : Z) (f0 f1 : flag) : res ptr :=
  let* _ := check_data chk (pd2_data o) in
  let* _ := check_n chk N n in
  let* _ := check_flag_dim chk 0 l0 f0 in
  let* _ := check_flag_dim chk 1 l1 f1 in
  let* r := srange2 chk (pd2_size o) RALL RALL in
  let* _ := check_range2 chk r 0 l0 i (fl_offset f0) in
  let* r := srange2 chk (pd2_size o) RALL RALL in
  let* _ := check_range2 chk r 1 l1 j (fl_offset f1) in
  let* ii := iadd i (fl_offset f0) in
  let* jj := iadd j (fl_offset f1) in
  lval2 m o n ii jj.

(** PointData_2D.hpp:382-383, [data_pt]. *)
Definition data_pt2 (m : mem) (o : pd2) (n : Z) : res ptr :=
  let* _ := check_n chk N n in
  let* p := arr_get (pd2_pt0 o) n in
  let* n0 := sn2 chk (pd2_size o) 0 in
  let* k := ineg n0 in
  let* c := pidx m p k in
  let* q := load_ptr m c in
  let* n1 := sn2 chk (pd2_size o) 1 in
  let* k1 := ineg n1 in
  padd m q k1.

(** PointData_2D.hpp:582-604, [disp_data]. *)
Definition disp_data2 (m : mem) (o : pd2) : M (list (tok V)) unit :=
  do* b0 := lift (sbegin2 chk (pd2_size o) 0 RALL) in
  do* e0 := lift (let* e := send2 chk (pd2_size o) 0 RALL in iadd e (loc_val l0)) in
  do* b1 := lift (sbegin2 chk (pd2_size o) 1 RALL) in
  do* e1 := lift (let* e := send2 chk (pd2_size o) 1 RALL in iadd e (loc_val l1)) in
  for_uint 0 N (fun n =>
    put (TStr "N = ") ;;; put (TInt n) ;;; put TEndl ;;;
    for_int b0 e0 (fun i =>
      for_int b1 e1 (fun j =>
        put_cell (let* q := lval2 m o n i j in load m q) ;;;
        put (TStr ", ")) ;;;
      put TEndl) ;;;
    put TEndl).

(** PointData_2D.hpp:606-643, [copy_from] with explicit ranges and anchors. *)
Definition copy_from2 (dst src : pd2) (same : bool) (R r_ : rangeT2) (I J i j : Z) : M mem unit :=
  do* k0 := lift (isub I i) in
  do* k1 := lift (isub J j) in
  do* r := lift (tran2 r_ k0 k1) in
  do* ov := lift (overlap2 chk R r) in
  lift (if chk then
          let* k0' := isub i I in
          let* k1' := isub j J in
          let* RR := tran2 R k0' k1' in
          let* ml0 := ineg (loc_val l0) in
          let* ml1 := ineg (loc_val l1) in
          let* RR := cut_tail2 RR ml0 ml1 in
          let* RR := cut_head2 RR ml0 ml1 in
          if same then
            let* o := is_overlap2 chk RR ov in
            if o then Err ECopyOverlap else Ok tt
          else Ok tt
        else Ok tt) ;;;
  do* ml0 := lift (ineg (loc_val l0)) in
  do* ml1 := lift (ineg (loc_val l1)) in
  do* ov := lift (cut_tail2 ov ml0 ml1) in
  do* ddi := lift (isub i I) in
  do* ddj := lift (isub j J) in
  do* b0 := lift (rbegin2 chk ov 0) in
  do* e0 := lift (rend2 chk ov 0) in
  do* b1 := lift (rbegin2 chk ov 1) in
  do* e1 := lift (rend2 chk ov 1) in
  for_int b0 e0 (fun II =>
    for_int b1 e1 (fun JJ =>
      for_uint 0 N (fun n =>
        do* si := lift (iadd II ddi) in
        do* sj := lift (iadd JJ ddj) in
        do* v := gets (fun m => let* q := lval2 m src n si sj in load m q) in
        do* q := gets (fun m => lval2 m dst n II JJ) in
        store q v))).

(** PointData_2D.hpp:388-392, [copy_from] with region tags and anchors. *)
Definition copy_from2_tag (dst src : pd2) (same : bool) (R0 R1 r0 r1 : ra) (I J i j : Z) : M mem unit :=
  do* R := lift (srange2 chk (pd2_size dst) R0 R1) in
  do* r := lift (srange2 chk (pd2_size src) r0 r1) in
  copy_from2 dst src same R r I J i j.

(** PointData_2D.hpp:393-397, [copy_from] with ranges aligned at boundaries. *)
Definition copy_from2_fl (dst src : pd2) (same : bool) (R r_ : rangeT2) (fl0 fl1 : bflag) : M mem unit :=
  do* I0 := lift (rbound2 chk R 0 fl0) in
  do* J := lift (rbound2 chk R 1 fl1) in
  do* i := lift (rbound2 chk r_ 0 fl0) in
  do* j := lift (rbound2 chk r_ 1 fl1) in
  copy_from2 dst src same R r_ I0 J i j.

(** PointData_2D.hpp:398-407, [copy_from] with region tags aligned at boundaries. *)
Definition copy_from2_tag_fl (dst src : pd2) (same : bool) (R0 R1 r0 r1 : ra) (fl0 fl1 : bflag) : M mem unit :=
  do* R := lift (srange2 chk (pd2_size dst) R0 R1) in
  do* r := lift (srange2 chk (pd2_size src) r0 r1) in
  do* I0 := lift (sbound2 chk (pd2_size dst) 0 R0 fl0) in
  do* J := lift (sbound2 chk (pd2_size dst) 1 R1 fl1) in
  do* i := lift (sbound2 chk (pd2_size src) 0 r0 fl0) in
  do* j := lift (sbound2 chk (pd2_size src) 1 r1 fl1) in
  copy_from2 dst src same R r I0 J i j.

End PD2.
