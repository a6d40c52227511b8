(** PointData in three dimensions: scr/liton_point_data/PointData_3D.hpp:438-792. *)

From Coq Require Import ZArith List Bool String.
From Verif Require Import Base M_Flags M_Loop M_RS1 M_RS2 M_RS3 M_Heap M_PD1.
Import ListNotations.
Open Scope Z_scope.

(** PointData_3D.hpp:448-452, the data members. *)
Record pd3 := mkPD3 { pd3_size : sizeT3; pd3_data : ptr; pd3_pt0 : list ptr;
                      pd3_pt1 : ptr; pd3_pt2 : ptr }.

Section PD3.
Context {V : Type}.
Variable chk : bool.
(** the template parameters [_N], [_LOC0], [_LOC1], [_LOC2] *)
Variable N : Z.
Variables l0 l1 l2 : loc.

Notation mem := (mem V).
Notation ST := (mem * pd3)%type.

Definition set_size3 (s : sizeT3) : M ST unit :=
  upd_snd (fun o => mkPD3 s (pd3_data o) (pd3_pt0 o) (pd3_pt1 o) (pd3_pt2 o)).
Definition set_data3 (p : ptr) : M ST unit :=
  upd_snd (fun o => mkPD3 (pd3_size o) p (pd3_pt0 o) (pd3_pt1 o) (pd3_pt2 o)).
Definition set_pt1_3 (p : ptr) : M ST unit :=
  upd_snd (fun o => mkPD3 (pd3_size o) (pd3_data o) (pd3_pt0 o) p (pd3_pt2 o)).
Definition set_pt2_3 (p : ptr) : M ST unit :=
  upd_snd (fun o => mkPD3 (pd3_size o) (pd3_data o) (pd3_pt0 o) (pd3_pt1 o) p).
(** [pt0[n] = p] *)
Definition set_pt0_3 (n : Z) (p : ptr) : M ST unit :=
  do* o := get_snd in
  do* l := lift (arr_set (pd3_pt0 o) n p) in
  upd_snd (fun o => mkPD3 (pd3_size o) (pd3_data o) l (pd3_pt1 o) (pd3_pt2 o)).

(** The members before the constructor body runs (PointData_3D.hpp:448-452). *)
Definition blank3 : pd3 := mkPD3 size0_3 Null (repeat Wild (Z.to_nat N)) Null Null.

(** PointData_3D.hpp:586-597, the default constructor. *)
Definition ctor3 : M ST unit :=
  if N =? 0 then throw ENZero else
  for_uint 0 N (fun n => set_pt0_3 n Null).

(** PointData_3D.hpp:624-676, [alloc].  The expressions
    [s.size(d, RA::ALL) + _LOCd], which the source repeats, are evaluated once,
    as [P0], [P1], [P2] ([s] does not change). *)
Definition alloc3 (n0 iin0 p0 n1 iin1 p1 n2 iin2 p2 : Z) : M ST unit :=
  do* o := get_snd in
  if negb (is_null (pd3_data o)) then throw EAllocNotEmpty else
  let s := mk_sizeT3 n0 iin0 p0 n1 iin1 p1 n2 iin2 p2 in
  lift (scheck3 s) ;;;
  do* z0 := lift (ssize3 chk s 0 RALL) in
  do* z1 := lift (ssize3 chk s 1 RALL) in
  do* z2 := lift (ssize3 chk s 2 RALL) in
  let P0 := uadd z0 (loc_val l0) in
  let P1 := uadd z1 (loc_val l1) in
  let P2 := uadd z2 (loc_val l2) in
  let size_point := umul (umul P0 P1) P2 in
  if negb (size_point =? 0) then
    catch_bad_alloc (
      do* d := on_fst (hnew (umul size_point N)) in
      set_data3 d ;;;
      set_size3 s ;;;
      do* t1 := on_fst (hnew (umul N P0)) in
      set_pt1_3 t1 ;;;
      do* t2 := on_fst (hnew (umul (umul N P0) P1)) in
      set_pt2_3 t2 ;;;
      for_uint 0 N (fun n =>
        do* o := get_snd in
        do* q := on_fst (gets (fun m => padd m (pd3_pt1 o) (umul n P0))) in
        set_pt0_3 n q ;;;
        for_uint 0 P0 (fun ii =>
          do* o := get_snd in
          (* pt0[n][ii] = pt2 + n * P0 * P1 + ii * P1; *)
          do* a := on_fst (gets (fun m => padd m (pd3_pt2 o) (umul (umul n P0) P1))) in
          do* a := on_fst (gets (fun m => padd m a (umul ii P1))) in
          do* c := on_fst (gets (fun m => let* q := arr_get (pd3_pt0 o) n in pidx m q ii)) in
          on_fst (store c (CPtr a)) ;;;
          for_uint 0 P1 (fun jj =>
            do* o := get_snd in
            (* pt0[n][ii][jj] = data + n * P0 * P1 * P2 + ii * P1 * P2 + jj * P2; *)
            do* a := on_fst (gets (fun m => padd m (pd3_data o) (umul (umul (umul n P0) P1) P2))) in
            do* a := on_fst (gets (fun m => padd m a (umul (umul ii P1) P2))) in
            do* a := on_fst (gets (fun m => padd m a (umul jj P2))) in
            do* c := on_fst (gets (fun m =>
              let* q := arr_get (pd3_pt0 o) n in let* c := pidx m q ii in
              let* q := load_ptr m c in pidx m q jj)) in
            on_fst (store c (CPtr a)) ;;;
            (* pt0[n][ii][jj] += s.n(2); *)
            do* nn := lift (sn3 chk s 2) in
            do* c := on_fst (gets (fun m =>
              let* q := arr_get (pd3_pt0 o) n in let* c := pidx m q ii in
              let* q := load_ptr m c in pidx m q jj)) in
            do* a := on_fst (gets (fun m => let* a := load_ptr m c in padd m a nn)) in
            on_fst (store c (CPtr a))) ;;;
          (* pt0[n][ii] += s.n(1); *)
          do* o := get_snd in
          do* nn := lift (sn3 chk s 1) in
          do* c := on_fst (gets (fun m => let* q := arr_get (pd3_pt0 o) n in pidx m q ii)) in
          do* a := on_fst (gets (fun m => let* a := load_ptr m c in padd m a nn)) in
          on_fst (store c (CPtr a))) ;;;
        (* pt0[n] += s.n(0); *)
        do* o := get_snd in
        do* nn := lift (sn3 chk s 0) in
        do* q := on_fst (gets (fun m => let* q := arr_get (pd3_pt0 o) n in padd m q nn)) in
        set_pt0_3 n q))
      (throw ENoMem)
  else ret tt.

(** PointData_3D.hpp:599-613, the constructor with a shape. *)
Definition ctor3_sized (n0 iin0 p0 n1 iin1 p1 n2 iin2 p2 : Z) : M ST unit :=
  if N =? 0 then throw ENZero else
  for_uint 0 N (fun k => set_pt0_3 k Null) ;;;
  alloc3 n0 iin0 p0 n1 iin1 p1 n2 iin2 p2.

(** PointData_3D.hpp:688-705, [clear]; [pt0] keeps its (now dangling) pointers. *)
Definition clear3 : M ST unit :=
  do* o := get_snd in
  if is_null (pd3_data o) then throw EClearEmpty else
  on_fst (hdelete (pd3_data o)) ;;;
  set_data3 Null ;;;
  on_fst (hdelete (pd3_pt1 o)) ;;;
  set_pt1_3 Null ;;;
  on_fst (hdelete (pd3_pt2 o)) ;;;
  set_pt2_3 Null ;;;
  set_size3 size0_3.

(** PointData_3D.hpp:678-686, [realloc]. *)
Definition realloc3 (n0 iin0 p0 n1 iin1 p1 n2 iin2 p2 : Z) : M ST unit :=
  lift (scheck3 (mk_sizeT3 n0 iin0 p0 n1 iin1 p1 n2 iin2 p2)) ;;;
  clear3 ;;;
  alloc3 n0 iin0 p0 n1 iin1 p1 n2 iin2 p2.

(** PointData_3D.hpp:615-622, the destructor. *)
Definition dtor3 : M ST unit :=
  do* o := get_snd in
  if negb (is_null (pd3_data o)) then clear3 else ret tt.

(** The subscript expression [pt0[n][i][j][k]] as an lvalue
    (PointData_3D.hpp:485, :740, :787). *)
Definition lval3 (m : mem) (o : pd3) (n i j k : Z) : res ptr :=
  let* p := arr_get (pd3_pt0 o) n in
  let* c := pidx m p i in
  let* q := load_ptr m c in
  let* c := pidx m q j in
  let* q := load_ptr m c in
  pidx m q k.

(** PointData_3D.hpp:476-497, [operator()]. *)
Definition at3 (m : mem) (o : pd3) (n i j k : Z) (f0 f1 f2 : flag) : res ptr :=
  let* _ := check_data chk (pd3_data o) in
  let* _ := check_n chk N n in
  let* _ := check_flag_dim chk 0 l0 f0 in
  let* _ := check_flag_dim chk 1 l1 f1 in
  let* _ := check_flag_dim chk 2 l2 f2 in
  let* r := srange3 chk (pd3_size o) RALL RALL RALL in
  let* _ := check_range3 chk r 0 l0 i (fl_offset f0) in
  let* r := srange3 chk (pd3_size o) RALL RALL RALL in
  let* _ := check_range3 chk r 1 l1 j (fl_offset f1) in
  let* r := srange3 chk (pd3_size o) RALL RALL RALL in
  let* _ := check_range3 chk r 2 l2 k (fl_offset f2) in
  let* ii := iadd i (fl_offset f0) in
  let* jj := iadd j (fl_offset f1) in
  let* kk := iadd k (fl_offset f2) in
  lval3 m o n ii jj kk.

(** PointData_3D.hpp:499-500, [data_pt]. *)
Definition data_pt3 (m : mem) (o : pd3) (n : Z) : res ptr :=
  let* _ := check_n chk N n in
  let* p := arr_get (pd3_pt0 o) n in
  let* n0 := sn3 chk (pd3_size o) 0 in
  let* k0 := ineg n0 in
  let* c := pidx m p k0 in
  let* q := load_ptr m c in
  let* n1 := sn3 chk (pd3_size o) 1 in
  let* k1 := ineg n1 in
  let* c := pidx m q k1 in
  let* q := load_ptr m c in
  let* n2 := sn3 chk (pd3_size o) 2 in
  let* k2 := ineg n2 in
  padd m q k2.

(** PointData_3D.hpp:720-748, [disp_data]. *)
Definition disp_data3 (m : mem) (o : pd3) : M (list (tok V)) unit :=
  do* b0 := lift (sbegin3 chk (pd3_size o) 0 RALL) in
  do* e0 := lift (let* e := send3 chk (pd3_size o) 0 RALL in iadd e (loc_val l0)) in
  do* b1 := lift (sbegin3 chk (pd3_size o) 1 RALL) in
  do* e1 := lift (let* e := send3 chk (pd3_size o) 1 RALL in iadd e (loc_val l1)) in
  do* b2 := lift (sbegin3 chk (pd3_size o) 2 RALL) in
  do* e2 := lift (let* e := send3 chk (pd3_size o) 2 RALL in iadd e (loc_val l2)) in
  for_uint 0 N (fun n =>
    put (TStr "N = ") ;;; put (TInt n) ;;; put TEndl ;;;
    for_int b0 e0 (fun i =>
      put (TStr "i = ") ;;; put (TInt i) ;;; put TEndl ;;;
      for_int b1 e1 (fun j =>
        for_int b2 e2 (fun k =>
          put_cell (let* q := lval3 m o n i j k in load m q) ;;;
          put (TStr ", ")) ;;;
        put TEndl)) ;;;
    put TEndl).

(** PointData_3D.hpp:750-792, [copy_from] with explicit ranges and anchors. *)
Definition copy_from3 (dst src : pd3) (same : bool) (R r_ : rangeT3)
           (I J K i j k : Z) : M mem unit :=
  do* k0 := lift (isub I i) in
  do* k1 := lift (isub J j) in
  do* k2 := lift (isub K k) in
  do* r := lift (tran3 r_ k0 k1 k2) in
  do* ov := lift (overlap3 chk R r) in
  lift (if chk then
          let* k0' := isub i I in
          let* k1' := isub j J in
          let* k2' := isub k K in
          let* RR := tran3 R k0' k1' k2' in
          let* ml0 := ineg (loc_val l0) in
          let* ml1 := ineg (loc_val l1) in
          let* ml2 := ineg (loc_val l2) in
          let* RR := cut_tail3 RR ml0 ml1 ml2 in
          let* RR := cut_head3 RR ml0 ml1 ml2 in
          if same then
            let* o := is_overlap3 chk RR ov in
            if o then Err ECopyOverlap else Ok tt
          else Ok tt
        else Ok tt) ;;;
  do* ml0 := lift (ineg (loc_val l0)) in
  do* ml1 := lift (ineg (loc_val l1)) in
  do* ml2 := lift (ineg (loc_val l2)) in
  do* ov := lift (cut_tail3 ov ml0 ml1 ml2) in
  do* ddi := lift (isub i I) in
  do* ddj := lift (isub j J) in
  do* ddk := lift (isub k K) in
  do* b0 := lift (rbegin3 chk ov 0) in
  do* e0 := lift (rend3 chk ov 0) in
  do* b1 := lift (rbegin3 chk ov 1) in
  do* e1 := lift (rend3 chk ov 1) in
  do* b2 := lift (rbegin3 chk ov 2) in
  do* e2 := lift (rend3 chk ov 2) in
  for_int b0 e0 (fun II =>
    for_int b1 e1 (fun JJ =>
      for_int b2 e2 (fun KK =>
        for_uint 0 N (fun n =>
          do* si := lift (iadd II ddi) in
          do* sj := lift (iadd JJ ddj) in
          do* sk := lift (iadd KK ddk) in
          do* v := gets (fun m => let* q := lval3 m src n si sj sk in load m q) in
          do* q := gets (fun m => lval3 m dst n II JJ KK) in
          store q v)))).

(** PointData_3D.hpp:505-509, [copy_from] with region tags and anchors. *)
Definition copy_from3_tag (dst src : pd3) (same : bool) (R0 R1 R2 r0 r1 r2 : ra)
           (I J K i j k : Z) : M mem unit :=
  do* R := lift (srange3 chk (pd3_size dst) R0 R1 R2) in
  do* r := lift (srange3 chk (pd3_size src) r0 r1 r2) in
  copy_from3 dst src same R r I J K i j k.

(** PointData_3D.hpp:510-514, [copy_from] with ranges aligned at boundaries. *)
Definition copy_from3_fl (dst src : pd3) (same : bool) (R r_ : rangeT3)
           (fl0 fl1 fl2 : bflag) : M mem unit :=
  do* I0 := lift (rbound3 chk R 0 fl0) in
  do* J := lift (rbound3 chk R 1 fl1) in
  do* K := lift (rbound3 chk R 2 fl2) in
  do* i := lift (rbound3 chk r_ 0 fl0) in
  do* j := lift (rbound3 chk r_ 1 fl1) in
  do* k := lift (rbound3 chk r_ 2 fl2) in
  copy_from3 dst src same R r_ I0 J K i j k.

(** PointData_3D.hpp:515-524, [copy_from] with region tags aligned at boundaries. *)
Definition copy_from3_tag_fl (dst src : pd3) (same : bool) (R0 R1 R2 r0 r1 r2 : ra)
           (fl0 fl1 fl2 : bflag) : M mem unit :=
  do* R := lift (srange3 chk (pd3_size dst) R0 R1 R2) in
  do* r := lift (srange3 chk (pd3_size src) r0 r1 r2) in
  do* I0 := lift (sbound3 chk (pd3_size dst) 0 R0 fl0) in
  do* J := lift (sbound3 chk (pd3_size dst) 1 R1 fl1) in
  do* K := lift (sbound3 chk (pd3_size dst) 2 R2 fl2) in
  do* i := lift (sbound3 chk (pd3_size src) 0 r0 fl0) in
  do* j := lift (sbound3 chk (pd3_size src) 1 r1 fl1) in
  do* k := lift (sbound3 chk (pd3_size src) 2 r2 fl2) in
  copy_from3 dst src same R r I0 J K i j k.

End PD3.
