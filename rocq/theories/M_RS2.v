(** Ranges, range loops and shapes in two dimensions:
    scr/liton_point_data/PointData_2D.hpp:18-326. *)

From Coq Require Import ZArith List Bool.
From Verif Require Import Base M_Flags M_Loop M_RS1.
Import ListNotations.
Open Scope Z_scope.

(** PointData_2D.hpp:23-34, [DIM::check_d]. *)
Definition check_d2 (chk : bool) (d : Z) : res unit :=
  if chk then (if 2 <=? d then Err (EDim d 1) else Ok tt) else Ok tt.

(** Subscript of an [int[2]] member with an [unsigned] subscript
    (PointData_2D.hpp:53, for example): outside the array it is undefined. *)
Definition idx2 (v : Z * Z) (d : Z) : res Z :=
  if d =? 0 then Ok (fst v) else if d =? 1 then Ok (snd v) else UB.

(** PointData_2D.hpp:37-41, the fields of [RangeT]. *)
Record rangeT2 := mkRange2 { r2_begin : Z * Z; r2_size : Z * Z }.

(** PointData_2D.hpp:45-48, the constructor. *)
Definition mk_rangeT2 (b0 s0 b1 s1 : Z) : rangeT2 := mkRange2 (b0, b1) (u2i s0, u2i s1).

(** PointData_2D.hpp:53, [RangeT::begin]. *)
Definition rbegin2 (chk : bool) (r : rangeT2) (d : Z) : res Z :=
  let* _ := check_d2 chk d in idx2 (r2_begin r) d.
(** PointData_2D.hpp:54, [RangeT::size]. *)
Definition rsize2 (chk : bool) (r : rangeT2) (d : Z) : res Z :=
  let* _ := check_d2 chk d in idx2 (r2_size r) d.
(** PointData_2D.hpp:55, [RangeT::end]. *)
Definition rend2 (chk : bool) (r : rangeT2) (d : Z) : res Z :=
  let* _ := check_d2 chk d in
  let* b := rbegin2 chk r d in let* s := rsize2 chk r d in iadd b s.
(** PointData_2D.hpp:56, [RangeT::last]. *)
Definition rlast2 (chk : bool) (r : rangeT2) (d : Z) : res Z :=
  let* _ := check_d2 chk d in
  let* e := rend2 chk r d in isub e 1.
(** PointData_2D.hpp:57-58, [RangeT::bound]. *)
Definition rbound2 (chk : bool) (r : rangeT2) (d : Z) (fl : bflag) : res Z :=
  match fl with BN => rbegin2 chk r d | BP => rlast2 chk r d end.

(** PointData_2D.hpp:60-65, [RangeT::cut_head]. *)
Definition cut_head2 (r : rangeT2) (i j : Z) : res rangeT2 :=
  let* b0 := iadd (fst (r2_begin r)) i in let* s0 := isub (fst (r2_size r)) i in
  let* b1 := iadd (snd (r2_begin r)) j in let* s1 := isub (snd (r2_size r)) j in
  Ok (mkRange2 (b0, b1) (s0, s1)).
(** PointData_2D.hpp:66, [RangeT::cut_tail]. *)
Definition cut_tail2 (r : rangeT2) (i j : Z) : res rangeT2 :=
  let* s0 := isub (fst (r2_size r)) i in let* s1 := isub (snd (r2_size r)) j in
  Ok (mkRange2 (r2_begin r) (s0, s1)).
(** PointData_2D.hpp:67, [RangeT::tran]. *)
Definition tran2 (r : rangeT2) (i j : Z) : res rangeT2 :=
  let* b0 := iadd (fst (r2_begin r)) i in let* b1 := iadd (snd (r2_begin r)) j in
  Ok (mkRange2 (b0, b1) (r2_size r)).

(** PointData_2D.hpp:69-80, [RangeT::is_overlap]. *)
Definition is_overlap2 (chk : bool) (a r : rangeT2) : res bool :=
  let* c := sc_or
    (let* x := rbegin2 chk a 0 in let* y := rend2 chk r 0 in Ok (x >=? y)) (sc_or
    (let* x := rend2 chk a 0 in let* y := rbegin2 chk r 0 in Ok (x <=? y)) (sc_or
    (let* x := rbegin2 chk a 1 in let* y := rend2 chk r 1 in Ok (x >=? y))
    (let* x := rend2 chk a 1 in let* y := rbegin2 chk r 1 in Ok (x <=? y)))) in
  Ok (if c then false else true).

(** PointData_2D.hpp:81-95, [RangeT::overlap]. *)
Definition overlap2 (chk : bool) (a r : rangeT2) : res rangeT2 :=
  let* _ := (if chk then
               let* o := is_overlap2 chk a r in
               if o then Ok tt else Err EOverlapNotFound
             else Ok tt) in
  let* b0 := (let* x := rbegin2 chk a 0 in let* y := rbegin2 chk r 0 in
              if x >? y then rbegin2 chk a 0 else rbegin2 chk r 0) in
  let* e0 := (let* x := rend2 chk a 0 in let* y := rend2 chk r 0 in
              if x <? y then rend2 chk a 0 else rend2 chk r 0) in
  let* b1 := (let* x := rbegin2 chk a 1 in let* y := rbegin2 chk r 1 in
              if x >? y then rbegin2 chk a 1 else rbegin2 chk r 1) in
  let* e1 := (let* x := rend2 chk a 1 in let* y := rend2 chk r 1 in
              if x <? y then rend2 chk a 1 else rend2 chk r 1) in
  let* s0 := isub e0 b0 in
  let* s1 := isub e1 b1 in
  Ok (mk_rangeT2 b0 (i2u s0) b1 (i2u s1)).

(** PointData_2D.hpp:97-118, [RangeT::check_range]. *)
Definition check_range2 (chk : bool) (r : rangeT2) (d : Z) (l : loc) (ii offset : Z) : res unit :=
  if chk then
    let* _ := check_d2 chk d in
    let* bad := sc_or
      (let* b := rbegin2 chk r d in let* lo := isub b offset in Ok (ii <? lo))
      (let* e := rend2 chk r d in let* x := iadd e (loc_val l) in
       let* hi := isub x offset in Ok (ii >=? hi)) in
    if bad then
      match l with
      | center =>
          let* b := rbegin2 chk r d in let* la := rlast2 chk r d in
          Err (ERangeC d ii b la)
      | half =>
          if (offset =? 0) || (offset =? 1) then
            let* b := rbegin2 chk r d in let* _ := isub b 1 in
            let* la := rlast2 chk r d in let* e := rend2 chk r d in
            Err (ERangeH d ii offset b la e)
          else UB
      end
    else Ok tt
  else Ok tt.

(** PointData_2D.hpp:119, the two argument [check_range]. *)
Definition check_range2_c (chk : bool) (r : rangeT2) (d ii : Z) : res unit :=
  check_range2 chk r d center ii 0.

(** PointData_2D.hpp:132-146, [PD_For_2D]. *)
Definition PD_For_2D {S} (chk : bool) (r : rangeT2) (fn : Z -> Z -> M S unit) : M S unit :=
  do* b0 := lift (rbegin2 chk r 0) in
  do* e0 := lift (rend2 chk r 0) in
  do* b1 := lift (rbegin2 chk r 1) in
  do* e1 := lift (rend2 chk r 1) in
  for_int b0 e0 (fun i => for_int b1 e1 (fun j => fn i j)).

(** PointData_2D.hpp:148-165, [PD_For_N_2D]. *)
Definition PD_For_N_2D {S} (chk : bool) (N_b N_e : Z) (r : rangeT2)
           (fn : Z -> Z -> Z -> M S unit) : M S unit :=
  do* b0 := lift (rbegin2 chk r 0) in
  do* e0 := lift (rend2 chk r 0) in
  do* b1 := lift (rbegin2 chk r 1) in
  do* e1 := lift (rend2 chk r 1) in
  for_uint N_b N_e (fun n => for_int b0 e0 (fun i => for_int b1 e1 (fun j => fn n i j))).

(** PointData_2D.hpp:167-183, [PD_Reduce_2D]. *)
Definition PD_Reduce_2D {S T} (chk : bool) (r : rangeT2) (ans : T)
           (reduce : T -> T -> res T) (fn : Z -> Z -> M S T) : M S T :=
  red_frame ans reduce
    (do* b0 := lift (rbegin2 chk r 0) in
     do* e0 := lift (rend2 chk r 0) in
     do* b1 := lift (rbegin2 chk r 1) in
     do* e1 := lift (rend2 chk r 1) in
     for_int b0 e0 (fun i => for_int b1 e1 (fun j => red_step reduce (fn i j)))).

(** PointData_2D.hpp:185-204, [PD_Reduce_N_2D]. *)
Definition PD_Reduce_N_2D {S T} (chk : bool) (N_b N_e : Z) (r : rangeT2) (ans : T)
           (reduce : T -> T -> res T) (fn : Z -> Z -> Z -> M S T) : M S T :=
  red_frame ans reduce
    (do* b0 := lift (rbegin2 chk r 0) in
     do* e0 := lift (rend2 chk r 0) in
     do* b1 := lift (rbegin2 chk r 1) in
     do* e1 := lift (rend2 chk r 1) in
     for_uint N_b N_e (fun n =>
       for_int b0 e0 (fun i => for_int b1 e1 (fun j => red_step reduce (fn n i j))))).

(** PointData_2D.hpp:206-215, [D2::PD_For_1D] along dimension [d0]. *)
Definition PD_For_1D_2 {S} (chk : bool) (d0 : Z) (r : rangeT2) (fn : Z -> M S unit) : M S unit :=
  do* b0 := lift (rbegin2 chk r d0) in
  do* e0 := lift (rend2 chk r d0) in
  for_int b0 e0 fn.

(** PointData_2D.hpp:217-229, [D2::PD_For_N_1D]. *)
Definition PD_For_N_1D_2 {S} (chk : bool) (N_b N_e d0 : Z) (r : rangeT2)
           (fn : Z -> Z -> M S unit) : M S unit :=
  do* b0 := lift (rbegin2 chk r d0) in
  do* e0 := lift (rend2 chk r d0) in
  for_uint N_b N_e (fun n => for_int b0 e0 (fun ii => fn n ii)).

(** PointData_2D.hpp:231-242, [D2::PD_Reduce_1D]. *)
Definition PD_Reduce_1D_2 {S T} (chk : bool) (d0 : Z) (r : rangeT2) (ans : T)
           (reduce : T -> T -> res T) (fn : Z -> M S T) : M S T :=
  red_frame ans reduce
    (do* b0 := lift (rbegin2 chk r d0) in
     do* e0 := lift (rend2 chk r d0) in
     for_int b0 e0 (fun ii => red_step reduce (fn ii))).

(** PointData_2D.hpp:244-258, [D2::PD_Reduce_N_1D]. *)
Definition PD_Reduce_N_1D_2 {S T} (chk : bool) (N_b N_e d0 : Z) (r : rangeT2) (ans : T)
           (reduce : T -> T -> res T) (fn : Z -> Z -> M S T) : M S T :=
  red_frame ans reduce
    (do* b0 := lift (rbegin2 chk r d0) in
     do* e0 := lift (rend2 chk r d0) in
     for_uint N_b N_e (fun n => for_int b0 e0 (fun ii => red_step reduce (fn n ii)))).

(** PointData_2D.hpp:260-265, the fields of [SizeT]. *)
Record sizeT2 := mkSize2 { s2_in : Z * Z; s2_n : Z * Z; s2_p : Z * Z }.

(** PointData_2D.hpp:263-268, the default constructor. *)
Definition size0_2 : sizeT2 := mkSize2 (0, 0) (0, 0) (0, 0).

(** PointData_2D.hpp:269-273, the constructor. *)
Definition mk_sizeT2 (n0 iin0 p0 n1 iin1 p1 : Z) : sizeT2 :=
  mkSize2 (u2i iin0, u2i iin1) (u2i n0, u2i n1) (u2i p0, u2i p1).

(** PointData_2D.hpp:275-277, [SizeT::in], [SizeT::n], [SizeT::p]. *)
Definition sin2 (chk : bool) (s : sizeT2) (d : Z) : res Z :=
  let* _ := check_d2 chk d in idx2 (s2_in s) d.
Definition sn2 (chk : bool) (s : sizeT2) (d : Z) : res Z :=
  let* _ := check_d2 chk d in idx2 (s2_n s) d.
Definition sp2 (chk : bool) (s : sizeT2) (d : Z) : res Z :=
  let* _ := check_d2 chk d in idx2 (s2_p s) d.

(** PointData_2D.hpp:279,281,283,285, the [SizeT::begin] overloads. *)
Definition sbegin2 (chk : bool) (s : sizeT2) (d : Z) (t : ra) : res Z :=
  let* _ := check_d2 chk d in
  match t with
  | RALL => let* n := idx2 (s2_n s) d in ineg n
  | RIN => Ok 0
  | RN => let* n := idx2 (s2_n s) d in ineg n
  | RP => idx2 (s2_in s) d
  end.
(** PointData_2D.hpp:280,282,284,286, the [SizeT::end] overloads. *)
Definition send2 (chk : bool) (s : sizeT2) (d : Z) (t : ra) : res Z :=
  let* _ := check_d2 chk d in
  match t with
  | RALL => let* i := idx2 (s2_in s) d in let* p := idx2 (s2_p s) d in iadd i p
  | RIN => idx2 (s2_in s) d
  | RN => Ok 0
  | RP => let* i := idx2 (s2_in s) d in let* p := idx2 (s2_p s) d in iadd i p
  end.
(** PointData_2D.hpp:287-288, [SizeT::size]. *)
Definition ssize2 (chk : bool) (s : sizeT2) (d : Z) (t : ra) : res Z :=
  let* e := send2 chk s d t in let* b := sbegin2 chk s d t in
  let* x := isub e b in Ok (i2u x).
(** PointData_2D.hpp:289-290, [SizeT::last]. *)
Definition slast2 (chk : bool) (s : sizeT2) (d : Z) (t : ra) : res Z :=
  let* e := send2 chk s d t in isub e 1.
(** PointData_2D.hpp:291-294, [SizeT::bound]. *)
Definition sbound2 (chk : bool) (s : sizeT2) (d : Z) (t : ra) (fl : bflag) : res Z :=
  match fl with BN => sbegin2 chk s d t | BP => slast2 chk s d t end.
(** PointData_2D.hpp:296-297, [SizeT::mirror]. *)
Definition mirror2 (chk : bool) (s : sizeT2) (d : Z) (fl : bflag) (ii : Z) : res Z :=
  let* b := sbound2 chk s d RIN fl in let* x := imul 2 b in isub x ii.
(** PointData_2D.hpp:298-299, [SizeT::periodic]. *)
Definition periodic2 (chk : bool) (s : sizeT2) (d : Z) (fl : flag) (ii : Z) : res Z :=
  let* sg := ineg (fl_sign fl) in
  let* l := slast2 chk s d RIN in let* x := imul sg l in iadd x ii.
(** PointData_2D.hpp:301-305, [SizeT::range]. *)
Definition srange2 (chk : bool) (s : sizeT2) (t0 t1 : ra) : res rangeT2 :=
  let* b0 := sbegin2 chk s 0 t0 in let* z0 := ssize2 chk s 0 t0 in
  let* b1 := sbegin2 chk s 1 t1 in let* z1 := ssize2 chk s 1 t1 in
  Ok (mk_rangeT2 b0 z0 b1 z1).

(** One of the identical [if] statements of [SizeT::check]
    (PointData_2D.hpp:317-320 and :321-324; PointData_3D.hpp:423-434). *)
Definition scheck_dim (d in_ n p : Z) : res unit :=
  if in_ =? 0 then
    let* g := iadd n p in
    if negb (g =? 0) then Err (EInZero d) else Ok tt
  else Ok tt.

(** PointData_2D.hpp:315-325, [SizeT::check]. *)
Definition scheck2 (s : sizeT2) : res unit :=
  let* _ := scheck_dim 0 (fst (s2_in s)) (fst (s2_n s)) (fst (s2_p s)) in
  scheck_dim 1 (snd (s2_in s)) (snd (s2_n s)) (snd (s2_p s)).
