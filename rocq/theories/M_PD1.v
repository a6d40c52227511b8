(** PointData in one dimension: scr/liton_point_data/PointData_1D.hpp:229-501. *)

From Coq Require Import ZArith List Bool String.
From Verif Require Import Base M_Flags M_Loop M_RS1 M_Heap.
Import ListNotations.
Open Scope Z_scope.

(** PointData_1D.hpp:304-314, [check_n]; the same text in 2D (:415-425) and
    3D (:532-542). *)
Definition check_n (chk : bool) (N n : Z) : res unit :=
  if chk then
    if n >=? N then let* mx := isub (u2i N) 1 in Err (EN n mx) else Ok tt
  else Ok tt.

(** The two [if] statements for one dimension in [check_flag]
    (PointData_1D.hpp:320-327; PointData_2D.hpp:431-446; PointData_3D.hpp:548-571). *)
Definition check_flag_dim (chk : bool) (d : Z) (l : loc) (f : flag) : res unit :=
  if chk then
    match l, f with
    | center, FC => Ok tt
    | center, _ => Err (EFlagCenter d)
    | half, FC => Err (EFlagHalf d)
    | half, _ => Ok tt
    end
  else Ok tt.

(** PointData_1D.hpp:331-339, [check_data]; same text in 2D (:450-458), 3D (:575-583). *)
Definition check_data (chk : bool) (data : ptr) : res unit :=
  if chk then (if is_null data then Err ENoData else Ok tt) else Ok tt.

(** PointData_1D.hpp:236-239, the data members. *)
Record pd1 := mkPD1 { pd1_size : sizeT1; pd1_data : ptr; pd1_pt0 : list ptr }.

Section PD1.
Context {V : Type}.
(** [_CHECK_POINTDATA_RANGE] is defined *)
Variable chk : bool.
(** the template parameters [_N] and [_LOC0] *)
Variable N : Z.
Variable l0 : loc.

Notation mem := (mem V).
Notation ST := (mem * pd1)%type.

Definition set_size1 (s : sizeT1) : M ST unit :=
  upd_snd (fun o => mkPD1 s (pd1_data o) (pd1_pt0 o)).
Definition set_data1 (p : ptr) : M ST unit :=
  upd_snd (fun o => mkPD1 (pd1_size o) p (pd1_pt0 o)).
(** [pt0[n] = p] *)
Definition set_pt0_1 (n : Z) (p : ptr) : M ST unit :=
  do* o := get_snd in
  do* l := lift (arr_set (pd1_pt0 o) n p) in
  upd_snd (fun o => mkPD1 (pd1_size o) (pd1_data o) l).

(** The members before the constructor body runs (PointData_1D.hpp:237-239):
    [pt0] has no initialiser. *)
Definition blank1 : pd1 := mkPD1 size0_1 Null (repeat Wild (Z.to_nat N)).

(** PointData_1D.hpp:342-353, the default constructor. *)
Definition ctor1 : M ST unit :=
  if N =? 0 then throw ENZero else
  for_uint 0 N (fun n => set_pt0_1 n Null).

(** PointData_1D.hpp:378-412, [alloc]. *)
Definition alloc1 (n iin p : Z) : M ST unit :=
  do* o := get_snd in
  if negb (is_null (pd1_data o)) then throw EAllocNotEmpty else
  let s := mk_sizeT1 n iin p in
  lift (scheck1 s) ;;;
  do* z := lift (ssize1 chk s 0 RALL) in
  let size_point := uadd z (loc_val l0) in
  if negb (size_point =? 0) then
    catch_bad_alloc (
      do* d := on_fst (hnew (umul size_point N)) in
      set_data1 d ;;;
      set_size1 s ;;;
      for_uint 0 N (fun k =>
        do* o := get_snd in
        do* q := on_fst (gets (fun m => padd m (pd1_data o) (umul k size_point))) in
        do* nn := lift (sn1 chk s 0) in
        do* q' := on_fst (gets (fun m => padd m q nn)) in
        set_pt0_1 k q'))
      (throw ENoMem)
  else ret tt.

(** PointData_1D.hpp:355-367, the constructor with a shape. *)
Definition ctor1_sized (n iin p : Z) : M ST unit :=
  if N =? 0 then throw ENZero else
  for_uint 0 N (fun k => set_pt0_1 k Null) ;;;
  alloc1 n iin p.

(** PointData_1D.hpp:422-439, [clear]. *)
Definition clear1 : M ST unit :=
  do* o := get_snd in
  if is_null (pd1_data o) then throw EClearEmpty else
  on_fst (hdelete (pd1_data o)) ;;;
  set_data1 Null ;;;
  for_uint 0 N (fun n => set_pt0_1 n Null) ;;;
  set_size1 size0_1.

(** PointData_1D.hpp:414-420, [realloc]. *)
Definition realloc1 (n iin p : Z) : M ST unit :=
  lift (scheck1 (mk_sizeT1 n iin p)) ;;;
  clear1 ;;;
  alloc1 n iin p.

(** PointData_1D.hpp:369-376, the destructor. *)
Definition dtor1 : M ST unit :=
  do* o := get_snd in
  if negb (is_null (pd1_data o)) then clear1 else ret tt.

(** The subscript expression [pt0[n][i]] as an lvalue (PointData_1D.hpp:264, :464, :498). *)
Definition lval1 (m : mem) (o : pd1) (n i : Z) : res ptr :=
  let* p := arr_get (pd1_pt0 o) n in pidx m p i.

(** PointData_1D.hpp:257-274, [operator()]: the element referred to. *)
Definition at1 (m : mem) (o : pd1) (n i : Z) (f0 : flag) : res ptr :=
  let* _ := check_data chk (pd1_data o) in
  let* _ := check_n chk N n in
  let* _ := check_flag_dim chk 0 l0 f0 in
  let* r := srange1 chk (pd1_size o) RALL in
  let* _ := check_range1 chk r 0 l0 i (fl_offset f0) in
  let* ii := iadd i (fl_offset f0) in
  lval1 m o n ii.

(** PointData_1D.hpp:276-277, [data_pt]. *)
Definition data_pt1 (m : mem) (o : pd1) (n : Z) : res ptr :=
  let* _ := check_n chk N n in
  let* p := arr_get (pd1_pt0 o) n in
  let* nn := sn1 chk (pd1_size o) 0 in
  let* k := ineg nn in
  padd m p k.

(** PointData_1D.hpp:454-469, [disp_data]. *)
Definition disp_data1 (m : mem) (o : pd1) : M (list (tok V)) unit :=
  do* b0 := lift (sbegin1 chk (pd1_size o) 0 RALL) in
  do* e0 := lift (let* e := send1 chk (pd1_size o) 0 RALL in iadd e (loc_val l0)) in
  for_int b0 e0 (fun i =>
    for_uint 0 N (fun n =>
      put_cell (let* q := lval1 m o n i in load m q) ;;;
      put (TStr ", ")) ;;;
    put TEndl).

(** PointData_1D.hpp:471-501, [copy_from] with explicit ranges and anchors.
    [same] is the value of [&pd == this]. *)
Definition copy_from1 (dst src : pd1) (same : bool) (R r_ : rangeT1) (I i : Z) : M mem unit :=
  do* k := lift (isub I i) in
  do* r := lift (tran1 r_ k) in
  do* ov := lift (overlap1 chk R r) in
  lift (if chk then
          let* k' := isub i I in
          let* RR := tran1 R k' in
          let* ml := ineg (loc_val l0) in
          let* RR := cut_tail1 RR ml in
          let* RR := cut_head1 RR ml in
          if same then
            let* o := is_overlap1 chk RR ov in
            if o then Err ECopyOverlap else Ok tt
          else Ok tt
        else Ok tt) ;;;
  do* ml := lift (ineg (loc_val l0)) in
  do* ov := lift (cut_tail1 ov ml) in
  do* dd := lift (isub i I) in
  do* b0 := lift (rbegin1 chk ov 0) in
  do* e0 := lift (rend1 chk ov 0) in
  for_int b0 e0 (fun II =>
    for_uint 0 N (fun n =>
      do* si := lift (iadd II dd) in
      do* v := gets (fun m => let* q := lval1 m src n si in load m q) in
      do* q := gets (fun m => lval1 m dst n II) in
      store q v)).

(** PointData_1D.hpp:282-286, [copy_from] with region tags and anchors. *)
Definition copy_from1_tag (dst src : pd1) (same : bool) (R0 r0 : ra) (I i : Z) : M mem unit :=
  do* R := lift (srange1 chk (pd1_size dst) R0) in
  do* r := lift (srange1 chk (pd1_size src) r0) in
  copy_from1 dst src same R r I i.

(** PointData_1D.hpp:287-291, [copy_from] with ranges aligned at a boundary. *)
Definition copy_from1_fl (dst src : pd1) (same : bool) (R r_ : rangeT1) (fl0 : bflag) : M mem unit :=
  do* I0 := lift (rbound1 chk R 0 fl0) in
  do* i := lift (rbound1 chk r_ 0 fl0) in
  copy_from1 dst src same R r_ I0 i.

(** PointData_1D.hpp:292-296, [copy_from] with region tags aligned at a boundary. *)
Definition copy_from1_tag_fl (dst src : pd1) (same : bool) (R0 r0 : ra) (fl0 : bflag) : M mem unit :=
  do* R := lift (srange1 chk (pd1_size dst) R0) in
  do* r := lift (srange1 chk (pd1_size src) r0) in
  do* I0 := lift (sbound1 chk (pd1_size dst) 0 R0 fl0) in
  do* i := lift (sbound1 chk (pd1_size src) 0 r0 fl0) in
  copy_from1 dst src same R r I0 i.

End PD1.
