(** Ranges, range loops and shapes in one dimension:
    scr/liton_point_data/PointData_1D.hpp:18-227.

    The parameter [chk] of a function says whether the macro
    [_CHECK_POINTDATA_RANGE] is defined.  Dimension numbers [d] are [unsigned]. *)

From Coq Require Import ZArith List Bool.
From Verif Require Import Base M_Flags M_Loop.
Import ListNotations.
Open Scope Z_scope.

(** C++ [||]: the right operand is evaluated only if the left one is false. *)
Definition sc_or (a b : res bool) : res bool :=
  let* x := a in if x then Ok true else b.

(** PointData_1D.hpp:23-34, [DIM::check_d]. *)
Definition check_d1 (chk : bool) (d : Z) : res unit :=
  if chk then (if 1 <=? d then Err (EDim d 0) else Ok tt) else Ok tt.

(** PointData_1D.hpp:37-41, the fields of [RangeT]. *)
Record rangeT1 := mkRange1 { r1_begin : Z; r1_size : Z }.

(** PointData_1D.hpp:45, the constructor; [s] is [unsigned]. *)
Definition mk_rangeT1 (b s : Z) : rangeT1 := mkRange1 b (u2i s).

(** PointData_1D.hpp:50, [RangeT::begin]. *)
Definition rbegin1 (chk : bool) (r : rangeT1) (d : Z) : res Z :=
  let* _ := check_d1 chk d in Ok (r1_begin r).
(** PointData_1D.hpp:51, [RangeT::size]. *)
Definition rsize1 (chk : bool) (r : rangeT1) (d : Z) : res Z :=
  let* _ := check_d1 chk d in Ok (r1_size r).
(** PointData_1D.hpp:52, [RangeT::end]. *)
Definition rend1 (chk : bool) (r : rangeT1) (d : Z) : res Z :=
  let* b := rbegin1 chk r d in let* s := rsize1 chk r d in iadd b s.
(** PointData_1D.hpp:53, [RangeT::last]. *)
Definition rlast1 (chk : bool) (r : rangeT1) (d : Z) : res Z :=
  let* e := rend1 chk r d in isub e 1.
(** PointData_1D.hpp:54-55, [RangeT::bound]. *)
Definition rbound1 (chk : bool) (r : rangeT1) (d : Z) (fl : bflag) : res Z :=
  match fl with BN => rbegin1 chk r d | BP => rlast1 chk r d end.

(** PointData_1D.hpp:57, [RangeT::cut_head]: new value of the object. *)
Definition cut_head1 (r : rangeT1) (i : Z) : res rangeT1 :=
  let* b := iadd (r1_begin r) i in let* s := isub (r1_size r) i in Ok (mkRange1 b s).
(** PointData_1D.hpp:58, [RangeT::cut_tail]. *)
Definition cut_tail1 (r : rangeT1) (i : Z) : res rangeT1 :=
  let* s := isub (r1_size r) i in Ok (mkRange1 (r1_begin r) s).
(** PointData_1D.hpp:59, [RangeT::tran]. *)
Definition tran1 (r : rangeT1) (i : Z) : res rangeT1 :=
  let* b := iadd (r1_begin r) i in Ok (mkRange1 b (r1_size r)).

(** PointData_1D.hpp:61-71, [RangeT::is_overlap]. *)
Definition is_overlap1 (chk : bool) (a r : rangeT1) : res bool :=
  let* c := sc_or
    (let* x := rbegin1 chk a 0 in let* y := rend1 chk r 0 in Ok (x >=? y))
    (let* x := rend1 chk a 0 in let* y := rbegin1 chk r 0 in Ok (x <=? y)) in
  Ok (if c then false else true).

(** PointData_1D.hpp:72-83, [RangeT::overlap].  The size argument of the
    constructor is an [int] converted to [unsigned]. *)
Definition overlap1 (chk : bool) (a r : rangeT1) : res rangeT1 :=
  let* _ := (if chk then
               let* o := is_overlap1 chk a r in
               if o then Ok tt else Err EOverlapNotFound
             else Ok tt) in
  let* b := (let* x := rbegin1 chk a 0 in let* y := rbegin1 chk r 0 in
             if x >? y then rbegin1 chk a 0 else rbegin1 chk r 0) in
  let* e := (let* x := rend1 chk a 0 in let* y := rend1 chk r 0 in
             if x <? y then rend1 chk a 0 else rend1 chk r 0) in
  let* s := isub e b in
  Ok (mk_rangeT1 b (i2u s)).

(** PointData_1D.hpp:85-106, [RangeT::check_range].  The message of the half
    branch indexes the array [flag_str[2]] with [offset]: undefined unless
    [offset] is 0 or 1. *)
Definition check_range1 (chk : bool) (r : rangeT1) (d : Z) (l : loc) (ii offset : Z) : res unit :=
  if chk then
    let* _ := check_d1 chk d in
    let* bad := sc_or
      (let* b := rbegin1 chk r d in let* lo := isub b offset in Ok (ii <? lo))
      (let* e := rend1 chk r d in let* x := iadd e (loc_val l) in
       let* hi := isub x offset in Ok (ii >=? hi)) in
    if bad then
      match l with
      | center =>
          let* b := rbegin1 chk r d in let* la := rlast1 chk r d in
          Err (ERangeC d ii b la)
      | half =>
          if (offset =? 0) || (offset =? 1) then
            let* b := rbegin1 chk r d in let* _ := isub b 1 in
            let* la := rlast1 chk r d in let* e := rend1 chk r d in
            Err (ERangeH d ii offset b la e)
          else UB
      end
    else Ok tt
  else Ok tt.

(** PointData_1D.hpp:107, the two argument [check_range]. *)
Definition check_range1_c (chk : bool) (r : rangeT1) (d ii : Z) : res unit :=
  check_range1 chk r d center ii 0.

(** PointData_1D.hpp:118-127, [PD_For_1D]. *)
Definition PD_For_1D {S} (chk : bool) (r : rangeT1) (fn : Z -> M S unit) : M S unit :=
  do* b := lift (rbegin1 chk r 0) in
  do* e := lift (rend1 chk r 0) in
  for_int b e fn.

(** PointData_1D.hpp:129-141, [PD_For_N_1D]. *)
Definition PD_For_N_1D {S} (chk : bool) (N_b N_e : Z) (r : rangeT1)
           (fn : Z -> Z -> M S unit) : M S unit :=
  do* b := lift (rbegin1 chk r 0) in
  do* e := lift (rend1 chk r 0) in
  for_uint N_b N_e (fun n => for_int b e (fun i => fn n i)).

(** PointData_1D.hpp:143-154, [PD_Reduce_1D]. *)
Definition PD_Reduce_1D {S T} (chk : bool) (r : rangeT1) (ans : T)
           (reduce : T -> T -> res T) (fn : Z -> M S T) : M S T :=
  red_frame ans reduce
    (do* b := lift (rbegin1 chk r 0) in
     do* e := lift (rend1 chk r 0) in
     for_int b e (fun i => red_step reduce (fn i))).

(** PointData_1D.hpp:156-170, [PD_Reduce_N_1D]. *)
Definition PD_Reduce_N_1D {S T} (chk : bool) (N_b N_e : Z) (r : rangeT1) (ans : T)
           (reduce : T -> T -> res T) (fn : Z -> Z -> M S T) : M S T :=
  red_frame ans reduce
    (do* b := lift (rbegin1 chk r 0) in
     do* e := lift (rend1 chk r 0) in
     for_uint N_b N_e (fun n => for_int b e (fun i => red_step reduce (fn n i)))).

(** PointData_1D.hpp:172-177, the fields of [SizeT]. *)
Record sizeT1 := mkSize1 { s1_in : Z; s1_n : Z; s1_p : Z }.

(** PointData_1D.hpp:175-180, the default constructor. *)
Definition size0_1 : sizeT1 := mkSize1 0 0 0.

(** PointData_1D.hpp:181-182, the constructor; the arguments are [unsigned]
    in the order negative side, interior, positive side. *)
Definition mk_sizeT1 (n iin p : Z) : sizeT1 := mkSize1 (u2i iin) (u2i n) (u2i p).

(** PointData_1D.hpp:184-186, [SizeT::in], [SizeT::n], [SizeT::p]. *)
Definition sin1 (chk : bool) (s : sizeT1) (d : Z) : res Z :=
  let* _ := check_d1 chk d in Ok (s1_in s).
Definition sn1 (chk : bool) (s : sizeT1) (d : Z) : res Z :=
  let* _ := check_d1 chk d in Ok (s1_n s).
Definition sp1 (chk : bool) (s : sizeT1) (d : Z) : res Z :=
  let* _ := check_d1 chk d in Ok (s1_p s).

(** PointData_1D.hpp:188,190,192,194, the [SizeT::begin] overloads. *)
Definition sbegin1 (chk : bool) (s : sizeT1) (d : Z) (t : ra) : res Z :=
  let* _ := check_d1 chk d in
  match t with
  | RALL => ineg (s1_n s)
  | RIN => Ok 0
  | RN => ineg (s1_n s)
  | RP => Ok (s1_in s)
  end.
(** PointData_1D.hpp:189,191,193,195, the [SizeT::end] overloads. *)
Definition send1 (chk : bool) (s : sizeT1) (d : Z) (t : ra) : res Z :=
  let* _ := check_d1 chk d in
  match t with
  | RALL => iadd (s1_in s) (s1_p s)
  | RIN => Ok (s1_in s)
  | RN => Ok 0
  | RP => iadd (s1_in s) (s1_p s)
  end.
(** PointData_1D.hpp:196-197, [SizeT::size]: an [int] difference converted to [unsigned]. *)
Definition ssize1 (chk : bool) (s : sizeT1) (d : Z) (t : ra) : res Z :=
  let* e := send1 chk s d t in let* b := sbegin1 chk s d t in
  let* x := isub e b in Ok (i2u x).
(** PointData_1D.hpp:198-199, [SizeT::last]. *)
Definition slast1 (chk : bool) (s : sizeT1) (d : Z) (t : ra) : res Z :=
  let* e := send1 chk s d t in isub e 1.
(** PointData_1D.hpp:200-203, [SizeT::bound]. *)
Definition sbound1 (chk : bool) (s : sizeT1) (d : Z) (t : ra) (fl : bflag) : res Z :=
  match fl with BN => sbegin1 chk s d t | BP => slast1 chk s d t end.
(** PointData_1D.hpp:205-206, [SizeT::mirror]. *)
Definition mirror1 (chk : bool) (s : sizeT1) (d : Z) (fl : bflag) (ii : Z) : res Z :=
  let* b := sbound1 chk s d RIN fl in let* x := imul 2 b in isub x ii.
(** PointData_1D.hpp:207-208, [SizeT::periodic]. *)
Definition periodic1 (chk : bool) (s : sizeT1) (d : Z) (fl : flag) (ii : Z) : res Z :=
  let* sg := ineg (fl_sign fl) in
  let* l := slast1 chk s d RIN in let* x := imul sg l in iadd x ii.
(** PointData_1D.hpp:210-211, [SizeT::range]. *)
Definition srange1 (chk : bool) (s : sizeT1) (t : ra) : res rangeT1 :=
  let* b := sbegin1 chk s 0 t in let* z := ssize1 chk s 0 t in Ok (mk_rangeT1 b z).

(** PointData_1D.hpp:220-226, [SizeT::check]. *)
Definition scheck1 (s : sizeT1) : res unit :=
  if s1_in s =? 0 then
    let* g := iadd (s1_n s) (s1_p s) in
    if negb (g =? 0) then Err (EInZero 0) else Ok tt
  else Ok tt.
