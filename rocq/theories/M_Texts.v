(** Texts: what() of the exceptions of PointData, disp() of RangeT, SizeT and PointData, and the characters of disp_data()
    for integers. *)

From Coq Require Import ZArith Ascii String List Bool.
From Verif Require Import Base M_Flags M_RS1 M_RS2 M_RS3 M_Bytes M_TecZone M_TecFile M_Heap M_PD0 M_PD1 M_PD2 M_PD3 M_Class.
Import ListNotations.
Open Scope string_scope.
Open Scope Z_scope.

(** [stream << i] for an [int] is [fmt_i i] (M_Bytes.v); for an [unsigned] (at most 10 digits): *)
Definition fmt_u (u : Z) : string := show 10 u.

(** ** what() *)

(** [ijk_str] and [flag_str] of check_range, PointData_1D.hpp:91 and 99, PointData_2D.hpp:103 and 111,
    PointData_3D.hpp:109 and 117. *)
Definition ijk_str (d : Z) : string := if d =? 0 then "i" else if d =? 1 then "j" else "k".
Definition flag_str (off : Z) : string := if off =? 0 then "N" else "P".

(** The messages, by throw site (PointData_1D.hpp; the same in PointData_2D.hpp and PointData_3D.hpp.  0D arrays say
    "out of DIM range: " and "out of N range: " instead, PointData_0D.hpp:24 and 67).  [None]: not a message of these
    classes, or one with a file name ([EVarNotFound], [EOpen], [ERead]). *)
Definition what (e : exn) : option string :=
  match e with
  | EDim d m => Some ("DIM is out of range: " ++ fmt_u d ++ " range:[" ++ fmt_i 0 ++ "," ++ fmt_i m ++ "]")   (* 29-31 *)
  | EOverlapNotFound => Some "overlap not found"                                                              (* 77 *)
  | ERangeC d ii b l =>                                                                                       (* 95 *)
      Some (ijk_str d ++ " is out of range: " ++ fmt_i ii ++ " range:[" ++ fmt_i b ++ "," ++ fmt_i l ++ "]")
  | ERangeH d ii off b l e =>                                                                                 (* 100-101 *)
      Some (ijk_str d ++ " is out of range: " ++ fmt_i ii ++ "(" ++ flag_str off ++ ")" ++
            " range:[" ++ fmt_i (b - 1) ++ "(P)," ++ fmt_i b ++ "," ++ fmt_i l ++ "," ++ fmt_i e ++ "(N)]")
  | EN n m => Some ("N is out of range: " ++ fmt_u n ++ " range:[" ++ fmt_i 0 ++ "," ++ fmt_i m ++ "]")       (* 310 *)
  | EFlagCenter d => Some ("dim[" ++ fmt_i d ++ "]: flag must be [C] when location is [center]")              (* 322 *)
  | EFlagHalf d => Some ("dim[" ++ fmt_i d ++ "]: flag must be [N] or [P] when location is [half]")           (* 326 *)
  | ENoData => Some "data do not exist"                                                                       (* 336 *)
  | ENZero => Some "N is not allowed to be zero"                                                              (* 347, 360 *)
  | EAllocNotEmpty => Some "allocating memory do not allowed when data is not empty"                          (* 383 *)
  | EClearEmpty => Some "clearing data do not allowed when data is empty"                                     (* 427 *)
  | ENoMem => Some "no more memory for allocating"                                                            (* 404 *)
  | EInZero d => Some ("dim[" ++ fmt_i d ++ "]: size_in can not be zero when size_n or size_p is non-zero")   (* 224 *)
  | ECopyOverlap => Some "copy and write zone overlap"                                                        (* 485 *)
  | EZoneTooBig => Some "zone number is too big"                                                              (* 511 *)
  | EFileSize => Some "N_file is bigger than N_in or equal to 0"                                              (* 517 *)
  | ETecType => Some "tec_file data type error"                                                               (* 571 *)
  | _ => None
  end.

(** 0D arrays: PointData_0D.hpp:24 and 67. *)
Definition what0 (e : exn) : option string :=
  match e with
  | EDim d m => Some ("out of DIM range: " ++ fmt_u d ++ " range:[" ++ fmt_i 0 ++ "," ++ fmt_i m ++ "]")
  | EN n m => Some ("out of N range: " ++ fmt_u n ++ " range:[" ++ fmt_i 0 ++ "," ++ fmt_i m ++ "]")
  | _ => None
  end.

(** ** disp() *)

(** One dimension of RangeT::disp, PointData_1D.hpp:112-113. *)
Definition range_text (d b l s : Z) : string :=
  "range[" ++ fmt_i d ++ "] = [" ++ fmt_i b ++ " , " ++ fmt_i l ++ "]  " ++ "size[" ++ fmt_i d ++ "] = " ++ fmt_i s.

(** RangeT::disp, PointData_1D.hpp:109-115, PointData_2D.hpp:121-129, PointData_3D.hpp:127-137. *)
Definition rdisp1 (chk : bool) (r : rangeT1) : res string :=
  let* b := rbegin1 chk r 0 in let* l := rlast1 chk r 0 in let* s := rsize1 chk r 0 in Ok (range_text 0 b l s).
Definition rdisp2 (chk : bool) (r : rangeT2) : res string :=
  let* b := rbegin2 chk r 0 in let* l := rlast2 chk r 0 in let* s := rsize2 chk r 0 in
  let* b' := rbegin2 chk r 1 in let* l' := rlast2 chk r 1 in let* s' := rsize2 chk r 1 in
  Ok (range_text 0 b l s ++ "    " ++ range_text 1 b' l' s').
Definition rdisp3 (chk : bool) (r : rangeT3) : res string :=
  let* b := rbegin3 chk r 0 in let* l := rlast3 chk r 0 in let* s := rsize3 chk r 0 in
  let* b' := rbegin3 chk r 1 in let* l' := rlast3 chk r 1 in let* s' := rsize3 chk r 1 in
  let* b'' := rbegin3 chk r 2 in let* l'' := rlast3 chk r 2 in let* s'' := rsize3 chk r 2 in
  Ok (range_text 0 b l s ++ "    " ++ range_text 1 b' l' s' ++ "    " ++ range_text 2 b'' l'' s'').

(** A RangeT of PointData_1D, PointData_2D or PointData_3D. *)
Inductive any_range := AR1 (r : rangeT1) | AR2 (r : rangeT2) | AR3 (r : rangeT3).
Definition rdisp (chk : bool) (r : any_range) : res string :=
  match r with AR1 r => rdisp1 chk r | AR2 r => rdisp2 chk r | AR3 r => rdisp3 chk r end.

(** One dimension of SizeT::disp, PointData_1D.hpp:216. *)
Definition size_text (d n i p : Z) : string :=
  "size[" ++ fmt_i d ++ "] = [" ++ fmt_i n ++ " " ++ fmt_i i ++ " " ++ fmt_i p ++ "]".

(** SizeT::disp, PointData_1D.hpp:213-218, PointData_2D.hpp:307-313, PointData_3D.hpp:412-419. *)
Definition sdisp1 (s : sizeT1) : string := size_text 0 (s1_n s) (s1_in s) (s1_p s).
Definition sdisp2 (s : sizeT2) : string :=
  size_text 0 (fst (s2_n s)) (fst (s2_in s)) (fst (s2_p s)) ++ "  " ++
  size_text 1 (snd (s2_n s)) (snd (s2_in s)) (snd (s2_p s)).
Definition sdisp3 (s : sizeT3) : string :=
  size_text 0 (c0 (s3_n s)) (c0 (s3_in s)) (c0 (s3_p s)) ++ "  " ++
  size_text 1 (c1 (s3_n s)) (c1 (s3_in s)) (c1 (s3_p s)) ++ "  " ++
  size_text 2 (c2 (s3_n s)) (c2 (s3_in s)) (c2 (s3_p s)).

(** A SizeT of PointData_1D, PointData_2D or PointData_3D. *)
Inductive any_size := AS1 (s : sizeT1) | AS2 (s : sizeT2) | AS3 (s : sizeT3).
Definition sdisp (s : any_size) : string :=
  match s with AS1 s => sdisp1 s | AS2 s => sdisp2 s | AS3 s => sdisp3 s end.

(** PointData::disp, PointData_0D.hpp:84-91, PointData_1D.hpp:442-452, PointData_2D.hpp:570-580,
    PointData_3D.hpp:708-718.  [ty] is typeid(_NUMT).name(). *)
Definition loc_str (l : loc) : string := match l with center => "center" | half => "half" end.
Definition pdisp0 (ty : string) (N : Z) : string := "dimension:" ++ fmt_i 0 ++ "  type:[" ++ ty ++ "]" ++ "  N = " ++ fmt_u N.
Definition pdisp (ty : string) (k : kind) (o : obj) : string :=
  match k, o with
  | K1 N a, O1 o =>
      "dimension:" ++ fmt_i 1 ++ "  location:[" ++ loc_str a ++ "]" ++
      "  type:[" ++ ty ++ "]" ++ "  N = " ++ fmt_u N ++ "  " ++ sdisp1 (pd1_size o)
  | K2 N a b, O2 o =>
      "dimension:" ++ fmt_i 2 ++ "  location:[" ++ loc_str a ++ ", " ++ loc_str b ++ "]" ++
      "  type:[" ++ ty ++ "]" ++ "  N = " ++ fmt_u N ++ "  " ++ sdisp2 (pd2_size o)
  | K3 N a b c, O3 o =>
      "dimension:" ++ fmt_i 3 ++ "  location:[" ++ loc_str a ++ ", " ++ loc_str b ++ ", " ++ loc_str c ++ "]" ++
      "  type:[" ++ ty ++ "]" ++ "  N = " ++ fmt_u N ++ "  " ++ sdisp3 (pd3_size o)
  | _, _ => ""
  end.

(** ** disp_data() of an array of [int] *)

(** The characters of what disp_data puts into the stream ([put], M_Heap.v). *)
Definition tok_text (t : tok Z) : string :=
  match t with TStr s => s | TInt z => fmt_i z | TVal v => fmt_i v | TEndl => NL end.
Definition render (l : list (tok Z)) : string := fold_right (fun t s => tok_text t ++ s) "" l.
