(** Model of the client code that describes a zone by the size of an array. *)

From Coq Require Import ZArith String List Bool.
From Verif Require Import Base M_Flags M_RS1 M_RS2 M_RS3 M_Bytes M_TecZone M_Heap M_PD1 M_PD2 M_PD3 M_Class.
Import ListNotations.
Open Scope Z_scope.

(** Assignments to the members Max, Begin and End (ordered_tec.h:96-100). *)
Definition set_zmax (z : zone) (v : v3) : zone :=
  mkZone (z_name z) (z_strand z) (z_time z) v (z_skip z) (z_begin z) (z_end z) (z_aux z) (z_data z) (z_echo z).
Definition set_zbegin (z : zone) (v : v3) : zone :=
  mkZone (z_name z) (z_strand z) (z_time z) (z_max z) (z_skip z) v (z_end z) (z_aux z) (z_data z) (z_echo z).
Definition set_zend (z : zone) (v : v3) : zone :=
  mkZone (z_name z) (z_strand z) (z_time z) (z_max z) (z_skip z) (z_begin z) v (z_aux z) (z_data z) (z_echo z).

(** One pass of the loop of test/Test_D2_tecfile/Test_D2_tecfile.cpp:34-39 (also Test_D3_tecfile.cpp:35-40 and
    Example_D2_heat.cpp:55-60): [size d t] is [x.size().size(d, t)], an [unsigned] converted to INT32.
    Each array element is named before or after the size is computed; neither has an effect on the other. *)
Definition describe_dim (DIM : Z) (size : Z -> ra -> res Z) (d : Z) (z : zone) : res zone :=
  let* m := size d RALL in let* v := set_C (z_max z) DIM d (u2i m) in let z := set_zmax z v in
  let* b := size d RN in let* v := set_C (z_begin z) DIM d (u2i b) in let z := set_zbegin z v in
  let* e := size d RP in let* v := set_C (z_end z) DIM d (u2i e) in Ok (set_zend z v).

(** Test_D1_tecfile.cpp:33-35: no loop, element 0 of the members. *)
Definition describe1 (size : Z -> ra -> res Z) (z : zone) : res zone :=
  let* m := size 0 RALL in let* v := v3_set (z_max z) 0 (u2i m) in let z := set_zmax z v in
  let* b := size 0 RN in let* v := v3_set (z_begin z) 0 (u2i b) in let z := set_zbegin z v in
  let* e := size 0 RP in let* v := v3_set (z_end z) 0 (u2i e) in Ok (set_zend z v).

(** The loops, [for (unsigned d = 0; d != D2::DIM::D; ++d)] and the same with D3 (DIM::D is 2 and 3,
    PointData_2D.hpp:21 and PointData_3D.hpp:21). *)
Definition describe2 (size : Z -> ra -> res Z) (z : zone) : res zone :=
  let* z := describe_dim 2 size 0 z in describe_dim 2 size 1 z.
Definition describe3 (size : Z -> ra -> res Z) (z : zone) : res zone :=
  let* z := describe_dim 3 size 0 z in let* z := describe_dim 3 size 1 z in describe_dim 3 size 2 z.

(** The zone described by an array. *)
Definition describe (chk : bool) (o : obj) (z : zone) : res zone :=
  match o with
  | O1 o => describe1 (ssize1 chk (pd1_size o)) z
  | O2 o => describe2 (ssize2 chk (pd2_size o)) z
  | O3 o => describe3 (ssize3 chk (pd3_size o)) z
  end.
