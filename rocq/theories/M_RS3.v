(** Ranges, range loops and shapes in three dimensions:
    scr/liton_point_data/PointData_3D.hpp:18-436. *)

From Coq Require Import ZArith List Bool.
From Verif Require Import Base M_Flags M_Loop M_RS1 M_RS2.
Import ListNotations.
Open Scope Z_scope.

(** PointData_3D.hpp:23-34, [DIM::check_d]. *)
Definition check_d3 (chk : bool) (d : Z) : res unit :=
  if chk then (if 3 <=? d then Err (EDim d 2) else Ok tt) else Ok tt.

(** An [int[3]] member and its subscript with an [unsigned]
    (PointData_3D.hpp:40 and :54, for example). *)
Record int3 := mkI3 { c0 : Z; c1 : Z; c2 : Z }.
Definition idx3 (v : int3) (d : Z) : res Z :=
  if d =? 0 then Ok (c0 v) else if d =? 1 then Ok (c1 v)
  else if d =? 2 then Ok (c2 v) else UB.

(** PointData_3D.hpp:37-41, the fields of [RangeT]. *)
Record rangeT3 := mkRange3 { r3_begin : int3; r3_size : int3 }.

(** PointData_3D.hpp:45-49, the constructor. *)
Definition mk_rangeT3 (b0 s0 b1 s1 b2 s2 : Z) : rangeT3 :=
  mkRange3 (mkI3 b0 b1 b2) (mkI3 (u2i s0) (u2i s1) (u2i s2)).

(** PointData_3D.hpp:54, [RangeT::begin]. *)
Definition rbegin3 (chk : bool) (r : rangeT3) (d : Z) : res Z :=
  let* _ := check_d3 chk d in idx3 (r3_begin r) d.
(** PointData_3D.hpp:55, [RangeT::size]. *)
Definition rsize3 (chk : bool) (r : rangeT3) (d : Z) : res Z :=
  let* _ := check_d3 chk d in idx3 (r3_size r) d.
(** PointData_3D.hpp:56, [RangeT::end]. *)
Definition rend3 (chk : bool) (r : rangeT3) (d : Z) : res Z :=
  let* b := rbegin3 chk r d in let* s := rsize3 chk r d in iadd b s.
(** PointData_3D.hpp:57, [RangeT::last]. *)
Definition rlast3 (chk : bool) (r : rangeT3) (d : Z) : res Z :=
  let* e := rend3 chk r d in isub e 1.
(** PointData_3D.hpp:58-59, [RangeT::bound]. *)
Definition rbound3 (chk : bool) (r : rangeT3) (d : Z) (fl : bflag) : res Z :=
  match fl with BN => rbegin3 chk r d | BP => rlast3 chk r d end.

(** PointData_3D.hpp:61-67, [RangeT::cut_head]. *)
Definition cut_head3 (r : rangeT3) (i j k : Z) : res rangeT3 :=
  let* b0 := iadd (c0 (r3_begin r)) i in let* s0 := isub (c0 (r3_size r)) i in
  let* b1 := iadd (c1 (r3_begin r)) j in let* s1 := isub (c1 (r3_size r)) j in
  let* b2 := iadd (c2 (r3_begin r)) k in let* s2 := isub (c2 (r3_size r)) k in
  Ok (mkRange3 (mkI3 b0 b1 b2) (mkI3 s0 s1 s2)).
(** PointData_3D.hpp:68, [RangeT::cut_tail]. *)
Definition cut_tail3 (r : rangeT3) (i j k : Z) : res rangeT3 :=
  let* s0 := isub (c0 (r3_size r)) i in let* s1 := isub (c1 (r3_size r)) j in
  let* s2 := isub (c2 (r3_size r)) k in
  Ok (mkRange3 (r3_begin r) (mkI3 s0 s1 s2)).
(** PointData_3D.hpp:69, [RangeT::tran]. *)
Definition tran3 (r : rangeT3) (i j k : Z) : res rangeT3 :=
  let* b0 := iadd (c0 (r3_begin r)) i in let* b1 := iadd (c1 (r3_begin r)) j in
  let* b2 := iadd (c2 (r3_begin r)) k in
  Ok (mkRange3 (mkI3 b0 b1 b2) (r3_size r)).

(** PointData_3D.hpp:71-83, [RangeT::is_overlap]. *)
Definition is_overlap3 (chk : bool) (a r : rangeT3) : res bool :=
  let* c := sc_or
    (let* x := rbegin3 chk a 0 in let* y := rend3 chk r 0 in Ok (x >=? y)) (sc_or
    (let* x := rend3 chk a 0 in let* y := rbegin3 chk r 0 in Ok (x <=? y)) (sc_or
    (let* x := rbegin3 chk a 1 in let* y := rend3 chk r 1 in Ok (x >=? y)) (sc_or
    (let* x := rend3 chk a 1 in let* y := rbegin3 chk r 1 in Ok (x <=? y)) (sc_or
    (let* x := rbegin3 chk a 2 in let* y := rend3 chk r 2 in Ok (x >=? y))
    (let* x := rend3 chk a 2 in let* y := rbegin3 chk r 2 in Ok (x <=? y)))))) in
  Ok (if c then false else true).

(** PointData_3D.hpp:84-101, [RangeT::overlap]. *)
Definition overlap3 (chk : bool) (a r : rangeT3) : res rangeT3 :=
  let* _ := (if chk then
               let* o := is_overlap3 chk a r in
               if o then Ok tt else Err EOverlapNotFound
             else Ok tt) in
  let* b0 := (let* x := rbegin3 chk a 0 in let* y := rbegin3 chk r 0 in
              if x >? y then rbegin3 chk a 0 else rbegin3 chk r 0) in
  let* e0 := (let* x := rend3 chk a 0 in let* y := rend3 chk r 0 in
              if x <? y then rend3 chk a 0 else rend3 chk r 0) in
  let* b1 := (let* x := rbegin3 chk a 1 in let* y := rbegin3 chk r 1 in
              if x >? y then rbegin3 chk a 1 else rbegin3 chk r 1) in
  let* e1 := (let* x := rend3 chk a 1 in let* y := rend3 chk r 1 in
              if x <? y then rend3 chk a 1 else rend3 chk r 1) in
  let* b2 := (let* x := rbegin3 chk a 2 in let* y := rbegin3 chk r 2 in
              if x >? y then rbegin3 chk a 2 else rbegin3 chk r 2) in
  let* e2 := (let* x := rend3 chk a 2 in let* y := rend3 chk r 2 in
              if x <? y then rend3 chk a 2 else rend3 chk r 2) in
  let* s0 := isub e0 b0 in
  let* s1 := isub e1 b1 in
  let* s2 := isub e2 b2 in
  Ok (mk_rangeT3 b0 (i2u s0) b1 (i2u s1) b2 (i2u s2)).

(** PointData_3D.hpp:103-124, [RangeT::check_range]. *)
Definition check_range3 (chk : bool) (r : rangeT3) (d : Z) (l : loc) (ii offset : Z) : res unit :=
  if chk then
    let* _ := check_d3 chk d in
    let* bad := sc_or
      (let* b := rbegin3 chk r d in let* lo := isub b offset in Ok (ii <? lo))
      (let* e := rend3 chk r d in let* x := iadd e (loc_val l) in
       let* hi := isub x offset in Ok (ii >=? hi)) in
    if bad then
      match l with
      | center =>
          let* b := rbegin3 chk r d in let* la := rlast3 chk r d in
          Err (ERangeC d ii b la)
      | half =>
          if (offset =? 0) || (offset =? 1) then
            let* b := rbegin3 chk r d in let* _ := isub b 1 in
            let* la := rlast3 chk r d in let* e := rend3 chk r d in
            Err (ERangeH d ii offset b la e)
          else UB
      end
    else Ok tt
  else Ok tt.

(** PointData_3D.hpp:125, the two argument [check_range]. *)
Definition check_range3_c (chk : bool) (r : rangeT3) (d ii : Z) : res unit :=
  check_range3 chk r d center ii 0.

(** PointData_3D.hpp:140-159, [PD_For_3D]. *)
Definition PD_For_3D {S} (chk : bool) (r : rangeT3) (fn : Z -> Z -> Z -> M S unit) : M S unit :=
  do* b0 := lift (rbegin3 chk r 0) in
  do* e0 := lift (rend3 chk r 0) in
  do* b1 := lift (rbegin3 chk r 1) in
  do* e1 := lift (rend3 chk r 1) in
  do* b2 := lift (rbegin3 chk r 2) in
  do* e2 := lift (rend3 chk r 2) in
  for_int b0 e0 (fun i => for_int b1 e1 (fun j => for_int b2 e2 (fun k => fn i j k))).

(** PointData_3D.hpp:161-183, [PD_For_N_3D]. *)
Definition PD_For_N_3D {S} (chk : bool) (N_b N_e : Z) (r : rangeT3)
           (fn : Z -> Z -> Z -> Z -> M S unit) : M S unit :=
  do* b0 := lift (rbegin3 chk r 0) in
  do* e0 := lift (rend3 chk r 0) in
  do* b1 := lift (rbegin3 chk r 1) in
  do* e1 := lift (rend3 chk r 1) in
  do* b2 := lift (rbegin3 chk r 2) in
  do* e2 := lift (rend3 chk r 2) in
  for_uint N_b N_e (fun n =>
    for_int b0 e0 (fun i => for_int b1 e1 (fun j => for_int b2 e2 (fun k => fn n i j k)))).

(** PointData_3D.hpp:185-206, [PD_Reduce_3D]. *)
Definition PD_Reduce_3D {S T} (chk : bool) (r : rangeT3) (ans : T)
           (reduce : T -> T -> res T) (fn : Z -> Z -> Z -> M S T) : M S T :=
  red_frame ans reduce
    (do* b0 := lift (rbegin3 chk r 0) in
     do* e0 := lift (rend3 chk r 0) in
     do* b1 := lift (rbegin3 chk r 1) in
     do* e1 := lift (rend3 chk r 1) in
     do* b2 := lift (rbegin3 chk r 2) in
     do* e2 := lift (rend3 chk r 2) in
     for_int b0 e0 (fun i => for_int b1 e1 (fun j => for_int b2 e2 (fun k =>
       red_step reduce (fn i j k))))).

(** PointData_3D.hpp:208-232, [PD_Reduce_N_3D]. *)
Definition PD_Reduce_N_3D {S T} (chk : bool) (N_b N_e : Z) (r : rangeT3) (ans : T)
           (reduce : T -> T -> res T) (fn : Z -> Z -> Z -> Z -> M S T) : M S T :=
  red_frame ans reduce
    (do* b0 := lift (rbegin3 chk r 0) in
     do* e0 := lift (rend3 chk r 0) in
     do* b1 := lift (rbegin3 chk r 1) in
     do* e1 := lift (rend3 chk r 1) in
     do* b2 := lift (rbegin3 chk r 2) in
     do* e2 := lift (rend3 chk r 2) in
     for_uint N_b N_e (fun n =>
       for_int b0 e0 (fun i => for_int b1 e1 (fun j => for_int b2 e2 (fun k =>
         red_step reduce (fn n i j k)))))).

(** PointData_3D.hpp:234-248, [D3::PD_For_2D] along dimensions [d0], [d1]. *)
Definition PD_For_2D_3 {S} (chk : bool) (d0 d1 : Z) (r : rangeT3)
           (fn : Z -> Z -> M S unit) : M S unit :=
  do* b0 := lift (rbegin3 chk r d0) in
  do* e0 := lift (rend3 chk r d0) in
  do* b1 := lift (rbegin3 chk r d1) in
  do* e1 := lift (rend3 chk r d1) in
  for_int b0 e0 (fun ii => for_int b1 e1 (fun jj => fn ii jj)).

(** PointData_3D.hpp:250-267, [D3::PD_For_N_2D]. *)
Definition PD_For_N_2D_3 {S} (chk : bool) (N_b N_e d0 d1 : Z) (r : rangeT3)
           (fn : Z -> Z -> Z -> M S unit) : M S unit :=
  do* b0 := lift (rbegin3 chk r d0) in
  do* e0 := lift (rend3 chk r d0) in
  do* b1 := lift (rbegin3 chk r d1) in
  do* e1 := lift (rend3 chk r d1) in
  for_uint N_b N_e (fun n =>
    for_int b0 e0 (fun ii => for_int b1 e1 (fun jj => fn n ii jj))).

(** PointData_3D.hpp:269-285, [D3::PD_Reduce_2D]. *)
Definition PD_Reduce_2D_3 {S T} (chk : bool) (d0 d1 : Z) (r : rangeT3) (ans : T)
           (reduce : T -> T -> res T) (fn : Z -> Z -> M S T) : M S T :=
  red_frame ans reduce
    (do* b0 := lift (rbegin3 chk r d0) in
     do* e0 := lift (rend3 chk r d0) in
     do* b1 := lift (rbegin3 chk r d1) in
     do* e1 := lift (rend3 chk r d1) in
     for_int b0 e0 (fun ii => for_int b1 e1 (fun jj => red_step reduce (fn ii jj)))).

(** PointData_3D.hpp:287-306, [D3::PD_Reduce_N_2D]. *)
Definition PD_Reduce_N_2D_3 {S T} (chk : bool) (N_b N_e d0 d1 : Z) (r : rangeT3) (ans : T)
           (reduce : T -> T -> res T) (fn : Z -> Z -> Z -> M S T) : M S T :=
  red_frame ans reduce
    (do* b0 := lift (rbegin3 chk r d0) in
     do* e0 := lift (rend3 chk r d0) in
     do* b1 := lift (rbegin3 chk r d1) in
     do* e1 := lift (rend3 chk r d1) in
     for_uint N_b N_e (fun n =>
       for_int b0 e0 (fun ii => for_int b1 e1 (fun jj => red_step reduce (fn n ii jj))))).

(** PointData_3D.hpp:308-317, [D3::PD_For_1D] along dimension [d0]. *)
Definition PD_For_1D_3 {S} (chk : bool) (d0 : Z) (r : rangeT3) (fn : Z -> M S unit) : M S unit :=
  do* b0 := lift (rbegin3 chk r d0) in
  do* e0 := lift (rend3 chk r d0) in
  for_int b0 e0 fn.

(** PointData_3D.hpp:319-331, [D3::PD_For_N_1D]. *)
Definition PD_For_N_1D_3 {S} (chk : bool) (N_b N_e d0 : Z) (r : rangeT3)
           (fn : Z -> Z -> M S unit) : M S unit :=
  do* b0 := lift (rbegin3 chk r d0) in
  do* e0 := lift (rend3 chk r d0) in
  for_uint N_b N_e (fun n => for_int b0 e0 (fun ii => fn n ii)).

(** PointData_3D.hpp:333-344, [D3::PD_Reduce_1D]. *)
Definition PD_Reduce_1D_3 {S T} (chk : bool) (d0 : Z) (r : rangeT3) (ans : T)
           (reduce : T -> T -> res T) (fn : Z -> M S T) : M S T :=
  red_frame ans reduce
    (do* b0 := lift (rbegin3 chk r d0) in
     do* e0 := lift (rend3 chk r d0) in
     for_int b0 e0 (fun ii => red_step reduce (fn ii))).

(** PointData_3D.hpp:346-360, [D3::PD_Reduce_N_1D]. *)
Definition PD_Reduce_N_1D_3 {S T} (chk : bool) (N_b N_e d0 : Z) (r : rangeT3) (ans : T)
           (reduce : T -> T -> res T) (fn : Z -> Z -> M S T) : M S T :=
  red_frame ans reduce
    (do* b0 := lift (rbegin3 chk r d0) in
     do* e0 := lift (rend3 chk r d0) in
     for_uint N_b N_e (fun n => for_int b0 e0 (fun ii => red_step reduce (fn n ii)))).

(** PointData_3D.hpp:362-367, the fields of [SizeT]. *)
Record sizeT3 := mkSize3 { s3_in : int3; s3_n : int3; s3_p : int3 }.

(** PointData_3D.hpp:365-370, the default constructor. *)
Definition size0_3 : sizeT3 := mkSize3 (mkI3 0 0 0) (mkI3 0 0 0) (mkI3 0 0 0).

(** PointData_3D.hpp:371-376, the constructor. *)
Definition mk_sizeT3 (n0 iin0 p0 n1 iin1 p1 n2 iin2 p2 : Z) : sizeT3 :=
  mkSize3 (mkI3 (u2i iin0) (u2i iin1) (u2i iin2))
          (mkI3 (u2i n0) (u2i n1) (u2i n2)) (mkI3 (u2i p0) (u2i p1) (u2i p2)).

(** PointData_3D.hpp:378-380, [SizeT::in], [SizeT::n], [SizeT::p]. *)
Definition sin3 (chk : bool) (s : sizeT3) (d : Z) : res Z :=
  let* _ := check_d3 chk d in idx3 (s3_in s) d.
Definition sn3 (chk : bool) (s : sizeT3) (d : Z) : res Z :=
  let* _ := check_d3 chk d in idx3 (s3_n s) d.
Definition sp3 (chk : bool) (s : sizeT3) (d : Z) : res Z :=
  let* _ := check_d3 chk d in idx3 (s3_p s) d.

(** PointData_3D.hpp:382,384,386,388, the [SizeT::begin] overloads. *)
Definition sbegin3 (chk : bool) (s : sizeT3) (d : Z) (t : ra) : res Z :=
  let* _ := check_d3 chk d in
  match t with
  | RALL => let* n := idx3 (s3_n s) d in ineg n
  | RIN => Ok 0
  | RN => let* n := idx3 (s3_n s) d in ineg n
  | RP => idx3 (s3_in s) d
  end.
(** PointData_3D.hpp:383,385,387,389, the [SizeT::end] overloads. *)
Definition send3 (chk : bool) (s : sizeT3) (d : Z) (t : ra) : res Z :=
  let* _ := check_d3 chk d in
  match t with
  | RALL => let* i := idx3 (s3_in s) d in let* p := idx3 (s3_p s) d in iadd i p
  | RIN => idx3 (s3_in s) d
  | RN => Ok 0
  | RP => let* i := idx3 (s3_in s) d in let* p := idx3 (s3_p s) d in iadd i p
  end.
(** PointData_3D.hpp:390-391, [SizeT::size]. *)
Definition ssize3 (chk : bool) (s : sizeT3) (d : Z) (t : ra) : res Z :=
  let* e := send3 chk s d t in let* b := sbegin3 chk s d t in
  let* x := isub e b in Ok (i2u x).
(** PointData_3D.hpp:392-393, [SizeT::last]. *)
Definition slast3 (chk : bool) (s : sizeT3) (d : Z) (t : ra) : res Z :=
  let* e := send3 chk s d t in isub e 1.
(** PointData_3D.hpp:394-397, [SizeT::bound]. *)
Definition sbound3 (chk : bool) (s : sizeT3) (d : Z) (t : ra) (fl : bflag) : res Z :=
  match fl with BN => sbegin3 chk s d t | BP => slast3 chk s d t end.
(** PointData_3D.hpp:399-400, [SizeT::mirror]. *)
Definition mirror3 (chk : bool) (s : sizeT3) (d : Z) (fl : bflag) (ii : Z) : res Z :=
  let* b := sbound3 chk s d RIN fl in let* x := imul 2 b in isub x ii.
(** PointData_3D.hpp:401-402, [SizeT::periodic]. *)
Definition periodic3 (chk : bool) (s : sizeT3) (d : Z) (fl : flag) (ii : Z) : res Z :=
  let* sg := ineg (fl_sign fl) in
  let* l := slast3 chk s d RIN in let* x := imul sg l in iadd x ii.
(** PointData_3D.hpp:404-410, [SizeT::range]. *)
Definition srange3 (chk : bool) (s : sizeT3) (t0 t1 t2 : ra) : res rangeT3 :=
  let* b0 := sbegin3 chk s 0 t0 in let* z0 := ssize3 chk s 0 t0 in
  let* b1 := sbegin3 chk s 1 t1 in let* z1 := ssize3 chk s 1 t1 in
  let* b2 := sbegin3 chk s 2 t2 in let* z2 := ssize3 chk s 2 t2 in
  Ok (mk_rangeT3 b0 z0 b1 z1 b2 z2).

(** PointData_3D.hpp:421-435, [SizeT::check]. *)
Definition scheck3 (s : sizeT3) : res unit :=
  let* _ := scheck_dim 0 (c0 (s3_in s)) (c0 (s3_n s)) (c0 (s3_p s)) in
  let* _ := scheck_dim 1 (c1 (s3_in s)) (c1 (s3_n s)) (c1 (s3_p s)) in
  scheck_dim 2 (c2 (s3_in s)) (c2 (s3_n s)) (c2 (s3_p s)).
