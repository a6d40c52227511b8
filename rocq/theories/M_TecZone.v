(** Zones of scr/liton_ordered_tec: sizes, sampling of the data, minima and maxima. *)

From Coq Require Import ZArith Ascii String List Bool.
From Verif Require Import Base M_Bytes.
Import ListNotations.
Open Scope list_scope.
Open Scope string_scope.
Open Scope Z_scope.

(** [INT32 x[3]] *)
Record v3 := mk3 { x0 : Z; x1 : Z; x2 : Z }.
Definition list3 (v : v3) : list Z := [x0 v; x1 v; x2 v].

(** TEC_TYPE, ordered_tec.h:169-177, as its integer value. *)
Definition TEC_NULL := 0.
Definition TEC_FLOAT := 1.
Definition TEC_DOUBLE := 2.
Definition TEC_LONGINT := 3.
Definition TEC_SHORTINT := 4.
Definition TEC_BYTE := 5.

(** TEC_DATA, ordered_tec.h:169-180 and 487-512.  [d_mem] is the memory [DataP] points to, up
    to the end of the user's array ([None] for NULL); it is not changed by any
    function here.  The field [buf] is a local value of the model of [write_plt_data]. *)
Record tdata := mkData { d_type : Z; d_size : Z; d_mem : option bytes }.

(** TEC_DATA::TEC_DATA(), ordered_tec.cpp:1206-1212 *)
Definition data_null : tdata := mkData TEC_NULL 0 None.

(** The element types TEC_DATA(T *iDataP) tells apart, ordered_tec.h:520-559. *)
Inductive ctype := CFloat | CDouble | CInt | CShort | CSChar | COther (size : Z).

(** TEC_DATA::TEC_DATA(T *iDataP), ordered_tec.h:520-559.  [const] makes no difference.
    The text of the exception contains the compiler's type name; it is left out here. *)
Definition data_of (t : ctype) (mem : option bytes) : res tdata :=
  match t with
  | CFloat => Ok (mkData TEC_FLOAT 4 mem)
  | CDouble => Ok (mkData TEC_DOUBLE 8 mem)
  | CInt => Ok (mkData TEC_LONGINT 4 mem)
  | CShort => Ok (mkData TEC_SHORTINT 2 mem)
  | CSChar => Ok (mkData TEC_BYTE 1 mem)
  | COther _ => Err (ETec "type is unsupported in Tecplot")
  end.

(** [std::map<std::string, std::string>]: pairs in increasing order of names. *)
Notation aux := (list (string * string)).

(** TEC_ZONE, ordered_tec.h:90-160 and 418-482, without the fields [gather_real_size] computes
    (Dim, Real_Max, Real_Dim, noskip, noexc, see [real]) and [needreal].
    [z_time] is the bit pattern of the [double]; [z_echo] the bits of Echo_Mode as a number. *)
Record zone := mkZone {
  z_name : string; z_strand : Z; z_time : Z;
  z_max : v3; z_skip : v3; z_begin : v3; z_end : v3;
  z_aux : aux; z_data : list tdata; z_echo : Z }.

(** The fields set by [gather_real_size]. *)
Record real := mkReal { r_dim : Z; r_rdim : Z; r_max : v3; r_noskip : bool; r_noexc : bool }.

(** ordered_tec.cpp:891-903, one direction; [ix] is the letter. *)
Definition gather_check (name ix : string) (max skip b e : Z) : res unit :=
  if max =? 0 then Err (ETec ("Zone(" ++ name ++ "): " ++ ix ++ "Max connot be zero"))
  else if skip =? 0 then Err (ETec ("Zone(" ++ name ++ "): " ++ ix ++ "Skip must be positive"))
  else
    let* s := iadd b e in
    if max <=? s then
      Err (ETec ("Zone(" ++ name ++ "): sum of " ++ ix ++ "Begin and " ++ ix ++
                 "End is not smaller than " ++ ix ++ "Max"))
    else Ok tt.

(** ordered_tec.cpp:920-924, one direction. *)
Definition gather_real (max skip b e : Z) : res Z :=
  let* x := isub max b in
  let* x := isub x e in
  let* q := idiv x skip in
  let* r := irem x skip in
  if r =? 0 then Ok q else iadd q 1.

(** [--Dim] for a size of 1, ordered_tec.cpp:909-912 and 925-928 *)
Definition minus1 (m : Z) : Z := if m =? 1 then 1 else 0.

(** TEC_ZONE::gather_real_size, ordered_tec.cpp:887-932.
    The loop over the three directions is unrolled. *)
Definition gather_real_size (z : zone) : res real :=
  let m := z_max z in let s := z_skip z in let b := z_begin z in let e := z_end z in
  let* _ := gather_check (z_name z) "I" (x0 m) (x0 s) (x0 b) (x0 e) in
  let* _ := gather_check (z_name z) "J" (x1 m) (x1 s) (x1 b) (x1 e) in
  let* _ := gather_check (z_name z) "K" (x2 m) (x2 s) (x2 b) (x2 e) in
  let dim := 3 - minus1 (x2 m) - minus1 (x1 m) - minus1 (x0 m) in
  let* r2 := gather_real (x2 m) (x2 s) (x2 b) (x2 e) in
  let* r1 := gather_real (x1 m) (x1 s) (x1 b) (x1 e) in
  let* r0 := gather_real (x0 m) (x0 s) (x0 b) (x0 e) in
  let rdim := 3 - minus1 r2 - minus1 r1 - minus1 r0 in
  let noskip := (x2 s =? 1) && (x1 s =? 1) && (x0 s =? 1) in
  let noexc := (x2 b =? 0) && (x2 e =? 0) && (x1 b =? 0) && (x1 e =? 0)
               && (x0 b =? 0) && (x0 e =? 0) in
  Ok (mkReal dim rdim (mk3 r0 r1 r2) noskip noexc).

(** TEC_ZONE::get_real_max, get_real_max_C and get_real_dim, ordered_tec.cpp:825-841.
    An index outside 0..2 reads outside the array. *)
Definition v3_get (v : v3) (d : Z) : res Z :=
  if d =? 0 then Ok (x0 v) else if d =? 1 then Ok (x1 v) else if d =? 2 then Ok (x2 v) else UB.
Definition get_real_max (z : zone) (d : Z) : res Z :=
  let* r := gather_real_size z in v3_get (r_max r) d.
Definition get_real_max_C (z : zone) (DIM d : Z) : res Z :=
  let* r := gather_real_size z in v3_get (r_max r) (uwrap (DIM - 1 - d)).
Definition get_real_dim (z : zone) : res Z :=
  let* r := gather_real_size z in Ok (r_rdim r).

(** Max_C, Begin_C, End_C, Skip_C, ordered_tec.h:132-153, used to assign. *)
Definition v3_set (v : v3) (d x : Z) : res v3 :=
  if d =? 0 then Ok (mk3 x (x1 v) (x2 v))
  else if d =? 1 then Ok (mk3 (x0 v) x (x2 v))
  else if d =? 2 then Ok (mk3 (x0 v) (x1 v) x) else UB.
Definition set_C (v : v3) (DIM d x : Z) : res v3 := v3_set v (uwrap (DIM - 1 - d)) x.

(** ** Sampling *)

(** A buffer obtained with [new byte[n]]; [None] is an uninitialised byte. *)
Notation buffer := (list (option ascii)).

(** [std::memcpy(buf + dst, src + off, n)].  An access outside [src] or
    [buf] is undefined. *)
Definition memcpy (buf : buffer) (dst : Z) (src : bytes) (off n : Z) : res buffer :=
  if (0 <=? dst) && (dst + n <=? Z.of_nat (length buf))
     && (0 <=? off) && (off + n <=? Z.of_nat (length src)) then
    let d := Z.to_nat dst in let o := Z.to_nat off in let k := Z.to_nat n in
    Ok (firstn d buf ++ map Some (firstn k (skipn o src)) ++ skipn (d + k) buf)%list
  else UB.

(** [for (INT32 i = b; i < e; i += s) body]; [fuel] is the largest possible number of
    iterations.  Running out of fuel means that the loop does not end by itself. *)
Fixpoint for_lt {A} (fuel : nat) (i e s : Z) (body : Z -> A -> res A) (a : A) : res A :=
  if i <? e then
    match fuel with
    | O => UB
    | S k =>
        let* a := body i a in
        let* i := iadd i s in
        for_lt k i e s body a
    end
  else Ok a.
Definition for_ {A} (b e s : Z) (body : Z -> A -> res A) (a : A) : res A :=
  for_lt (Z.to_nat (e - b)) b e s body a.

(** Product of three [int], ordered_tec.cpp:953, 979, 1089, 1178 *)
Definition imul3 (v : v3) : res Z := let* p := imul (x0 v) (x1 v) in imul p (x2 v).

(** [new byte[Real_Max[0]*Real_Max[1]*Real_Max[2]*size]] with the enclosing
    try/catch, ordered_tec.cpp:951-958 and 977-984.  [oom]: this allocation fails.
    The text of [err.what()] is chosen by the C++ library; this is the one of libstdc++
    (the other, for a size above PTRDIFF_MAX, is std::bad_array_new_length). *)
Definition new_buf (oom : bool) (r : v3) (size : Z) : res buffer :=
  let* p := imul3 r in
  let n := szmul (i2sz p) size in
  if 2 ^ 63 - 1 <? n then Err (ETec "maybe out of memory: std::bad_array_new_length")
  else if oom then Err (ETec "maybe out of memory: std::bad_alloc")
  else Ok (repeat None (Z.to_nat n)).

(** ordered_tec.cpp:959-966: cut only.  [datap] is [None] only before [wrtie_plt_pre] has
    refused the data. *)
Definition cut_buf (z : zone) (r : v3) (size : Z) (datap : bytes) (buf : buffer) : res buffer :=
  let m := z_max z in let s := z_skip z in let b := z_begin z in
  let* e2 := isub (x2 m) (x2 (z_end z)) in
  for_ (x2 b) e2 (x2 s) (fun sk buf =>
    let* e1 := isub (x1 m) (x1 (z_end z)) in
    for_ (x1 b) e1 (x1 s) (fun sj buf =>
      (* Real_Max[0] * (sj - Begin[1]) / Skip[1] *)
      let* j := isub sj (x1 b) in
      let* j := imul (x0 r) j in
      let* j := idiv j (x1 s) in
      (* Real_Max[0]*Real_Max[1] * (sk - Begin[2]) / Skip[2] *)
      let* k := isub sk (x2 b) in
      let* rr := imul (x0 r) (x1 r) in
      let* k := imul rr k in
      let* k := idiv k (x2 s) in
      let* d := iadd j k in
      (* Begin[0] + Max[0]*sj + Max[0]*Max[1]*sk *)
      let* a := imul (x0 m) sj in
      let* a := iadd (x0 b) a in
      let* mm := imul (x0 m) (x1 m) in
      let* c := imul mm sk in
      let* o := iadd a c in
      memcpy buf (szmul (i2sz d) size) datap (szmul (i2sz o) size) (szmul (i2sz (x0 r)) size)) buf) buf.

(** ordered_tec.cpp:985-995: skip. *)
Definition skip_buf (z : zone) (r : v3) (size : Z) (datap : bytes) (buf : buffer) : res buffer :=
  let m := z_max z in let s := z_skip z in let b := z_begin z in
  let* e2 := isub (x2 m) (x2 (z_end z)) in
  for_ (x2 b) e2 (x2 s) (fun sk buf =>
    let* e1 := isub (x1 m) (x1 (z_end z)) in
    for_ (x1 b) e1 (x1 s) (fun sj buf =>
      let* e0 := isub (x0 m) (x0 (z_end z)) in
      for_ (x0 b) e0 (x0 s) (fun si buf =>
        (* (si - Begin[0]) / Skip[0] + Real_Max[0] * (sj - Begin[1]) / Skip[1] *)
        let* i := isub si (x0 b) in
        let* i := idiv i (x0 s) in
        let* j := isub sj (x1 b) in
        let* j := imul (x0 r) j in
        let* j := idiv j (x1 s) in
        let* i := iadd i j in
        (* + Real_Max[0]*Real_Max[1] * (sk - Begin[2]) / Skip[2] *)
        let* k := isub sk (x2 b) in
        let* rr := imul (x0 r) (x1 r) in
        let* k := imul rr k in
        let* k := idiv k (x2 s) in
        let* d := iadd i k in
        (* si + Max[0]*sj + Max[0]*Max[1]*sk *)
        let* a := imul (x0 m) sj in
        let* a := iadd si a in
        let* mm := imul (x0 m) (x1 m) in
        let* c := imul mm sk in
        let* o := iadd a c in
        memcpy buf (szmul (i2sz d) size) datap (szmul (i2sz o) size) size) buf) buf) buf.

(** TEC_ZONE::make_buf, ordered_tec.cpp:934-997, for one TEC_DATA.  The loop over Data is in
    M_TecFile.v.  Without skip and cut the buffer is the user's memory itself. *)
Definition make_buf1 (z : zone) (r : real) (oom : bool) (d : tdata) : res buffer :=
  match d_mem d with
  | None => UB
  | Some datap =>
      if r_noskip r && r_noexc r then Ok (map Some datap)
      else
        let* buf := new_buf oom (r_max r) (d_size d) in
        if r_noskip r then cut_buf z (r_max r) (d_size d) datap buf
        else skip_buf z (r_max r) (d_size d) datap buf
  end.

(** ** Minimum and maximum *)

(** The initialised bytes [off, off+n) of a buffer. *)
Fixpoint all_some (l : buffer) : option bytes :=
  match l with
  | [] => Some []
  | Some c :: l' => match all_some l' with Some r => Some (c :: r) | None => None end
  | None :: _ => None
  end.
Definition peek (buf : buffer) (off n : Z) : res bytes :=
  if (0 <=? off) && (off + n <=? Z.of_nat (length buf)) then
    match all_some (firstn (Z.to_nat n) (skipn (Z.to_nat off) buf)) with
    | Some l => Ok l
    | None => UB
    end
  else UB.

(** [data[i]] for elements of [w] bytes, as an unsigned bit pattern. *)
Definition elem (buf : buffer) (w i : Z) : res Z :=
  let* l := peek buf (w * i) w in Ok (unle l).

(** ordered_tec.cpp:1231-1250: [k] iterations from [i] on; [lt] is [<] of the type. *)
Fixpoint minmax_loop (lt : Z -> Z -> bool) (data : Z -> res Z) (k : nat) (i mn mx : Z) : res (Z * Z) :=
  match k with
  | O => Ok (mn, mx)
  | S k' =>
      let* a := data (2 * i) in
      let* b := data (2 * i + 1) in
      let '(loc_min, loc_max) := if lt b a then (b, a) else (a, b) in
      let mn := if lt loc_min mn then loc_min else mn in
      let mx := if lt mx loc_max then loc_max else mx in
      minmax_loop lt data k' (i + 1) mn mx
  end.

(** get_minmax, ordered_tec.cpp:1214-1261 *)
Definition get_minmax (lt : Z -> Z -> bool) (data : Z -> res Z) (N : Z) : res (Z * Z) :=
  let* first := data 0 in
  let odd := negb (N mod 2 =? 0) in
  let n := if odd then (N - 1) / 2 else N / 2 in
  let* (mn, mx) := minmax_loop lt data (Z.to_nat n) 0 first first in
  if odd then
    let* x := data (N - 1) in
    if lt x mn then Ok (x, mx)
    else if lt mx x then Ok (mn, x)
    else Ok (mn, mx)
  else Ok (mn, mx).

(** [<] of the element types on bit patterns. *)
Definition lt_float (a b : Z) : bool := num_lt (num32 a) (num32 b).
Definition lt_double (a b : Z) : bool := num_lt (num64 a) (num64 b).
Definition lt_signed (n a b : Z) : bool := signed n a <? signed n b.

(** TEC_DATA::minmax, ordered_tec.cpp:1263-1319; the results are bit patterns of
    [double]. *)
Definition minmax (type : Z) (buf : buffer) (N : Z) : res (Z * Z) :=
  if type =? TEC_FLOAT then
    let* (a, b) := get_minmax lt_float (elem buf 4) N in Ok (f32_to_f64 a, f32_to_f64 b)
  else if type =? TEC_DOUBLE then
    get_minmax lt_double (elem buf 8) N
  else if type =? TEC_LONGINT then
    let* (a, b) := get_minmax (lt_signed 32) (elem buf 4) N in
    Ok (int_to_f64 (signed 32 a), int_to_f64 (signed 32 b))
  else if type =? TEC_SHORTINT then
    let* (a, b) := get_minmax (lt_signed 16) (elem buf 2) N in
    Ok (int_to_f64 (signed 16 a), int_to_f64 (signed 16 b))
  else if type =? TEC_BYTE then
    let* (a, b) := get_minmax (lt_signed 8) (elem buf 1) N in
    Ok (int_to_f64 (signed 8 a), int_to_f64 (signed 8 b))
  else Err (ETec "data type error").
