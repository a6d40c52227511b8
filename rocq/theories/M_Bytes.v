(** Bytes, integers, floating point numbers and printf conversions, as used by
    scr/liton_ordered_tec/ordered_tec.cpp.

    Assumptions on the platform: 8 bit bytes, little endian, two's complement,
    [char] signed, IEEE 754 [float] and [double], 64 bit [size_t] and [long].
    This file models no function of /repo; the functions here are the C and C++
    library pieces ordered_tec.cpp relies on. *)

From Coq Require Import ZArith Ascii String List Bool.
From Verif Require Import Base.
Import ListNotations.
Open Scope Z_scope.
Open Scope list_scope.

Notation bytes := (list ascii).

(** A byte as a number from 0 to 255, and back. *)
Definition b2z (c : ascii) : Z := Z.of_N (N_of_ascii c).
Definition z2b (z : Z) : ascii := ascii_of_N (Z.to_N z).

(** The [n] bytes of an integer in memory, and the number they stand for
    (unsigned). *)
Fixpoint le (n : nat) (z : Z) : bytes :=
  match n with
  | O => []
  | S n' => z2b (z mod 256) :: le n' (z / 256)
  end.
Fixpoint unle (l : bytes) : Z :=
  match l with
  | [] => 0
  | c :: l' => b2z c + 256 * unle l'
  end.

(** Reading an unsigned [n] bit pattern as a signed number. *)
Definition signed (n : Z) (z : Z) : Z := if z <? 2 ^ (n - 1) then z else z - 2 ^ n.

(** The value of a [char]. *)
Definition char_val (c : ascii) : Z := signed 8 (b2z c).

(** Conversion of an [int] to [size_t], and products in [size_t]. *)
Definition i2sz (z : Z) : Z := z mod 2 ^ 64.
Definition szmul (a b : Z) : Z := (a * b) mod 2 ^ 64.

(** [int] division and remainder. *)
Definition idiv (a b : Z) : res Z := if b =? 0 then UB else ck (Z.quot a b).
Definition irem (a b : Z) : res Z :=
  if b =? 0 then UB else let* _ := ck (Z.quot a b) in Ok (Z.rem a b).

(** ** Floating point numbers *)

(** What a bit pattern stands for.  [Fin v] is a finite number in units of the
    smallest positive number of the format (2^-149 for [float], 2^-1074 for
    [double]). *)
Inductive num := NaN | MInf | Fin (v : Z) | PInf.

(** IEEE 754 binary format with [E] exponent bits and [M] mantissa bits. *)
Definition fnum (E M b : Z) : num :=
  let s := b / 2 ^ (E + M) mod 2 in
  let e := b / 2 ^ M mod 2 ^ E in
  let m := b mod 2 ^ M in
  if e =? 2 ^ E - 1 then
    if m =? 0 then (if s =? 0 then PInf else MInf) else NaN
  else
    let a := if e =? 0 then m else (2 ^ M + m) * 2 ^ (e - 1) in
    Fin (if s =? 0 then a else - a).
Definition num32 := fnum 8 23.
Definition num64 := fnum 11 52.

(** [x < y] *)
Definition num_lt (x y : num) : bool :=
  match x, y with
  | NaN, _ | _, NaN => false
  | MInf, MInf => false
  | MInf, _ => true
  | _, MInf => false
  | PInf, _ => false
  | _, PInf => true
  | Fin a, Fin b => a <? b
  end.

(** Conversion of a [float] to [double] on bit patterns; a NaN becomes quiet. *)
Definition f32_to_f64 (b : Z) : Z :=
  let s := b / 2 ^ 31 mod 2 in
  let e := b / 2 ^ 23 mod 2 ^ 8 in
  let m := b mod 2 ^ 23 in
  if e =? 255 then
    s * 2 ^ 63 + 2047 * 2 ^ 52 + (if m =? 0 then 0 else if m <? 2 ^ 22 then 2 ^ 51 + m * 2 ^ 29 else m * 2 ^ 29)
  else if e =? 0 then
    if m =? 0 then s * 2 ^ 63
    else let k := Z.log2 m in s * 2 ^ 63 + (874 + k) * 2 ^ 52 + (m - 2 ^ k) * 2 ^ (52 - k)
  else s * 2 ^ 63 + (e + 896) * 2 ^ 52 + m * 2 ^ 29.

(** Conversion of an integer of at most 53 bits to [double]. *)
Definition int_to_f64 (z : Z) : Z :=
  if z =? 0 then 0 else
  let s := if z <? 0 then 1 else 0 in
  let a := Z.abs z in
  let k := Z.log2 a in
  s * 2 ^ 63 + (1023 + k) * 2 ^ 52 + (a - 2 ^ k) * 2 ^ (52 - k).

(** ** Texts *)

Open Scope string_scope.
Open Scope Z_scope.

Definition TAB : string := String (ascii_of_nat 9) "".
Definition NL : string := String (ascii_of_nat 10) "".

(** [s.c_str()] as C functions see it: up to the first NUL. *)
Fixpoint c_str (s : string) : string :=
  match s with
  | "" => ""
  | String c s' => if b2z c =? 0 then "" else String c (c_str s')
  end.

Definition digit (d : Z) : ascii := z2b (48 + d).

(** Decimal digits of a non-negative number, at most [fuel] of them. *)
Fixpoint show_acc (fuel : nat) (n : Z) (acc : string) : string :=
  match fuel with
  | O => acc
  | S f =>
      let acc' := String (digit (n mod 10)) acc in
      if n <? 10 then acc' else show_acc f (n / 10) acc'
  end.
Definition show (fuel : nat) (n : Z) : string := show_acc fuel n "".

(** [%i] of an [int] and [%li] of a [long]: at most 10 and 19 digits. *)
Definition fmt_i (z : Z) : string := if z <? 0 then "-" ++ show 10 (- z) else show 10 z.
Definition fmt_li (z : Z) : string := if z <? 0 then "-" ++ show 19 (- z) else show 19 z.

(** Exactly [k] digits, with leading zeros. *)
Fixpoint show_pad (k : nat) (n : Z) : string :=
  match k with
  | O => ""
  | S k' => show_pad k' (n / 10) ++ String (digit (n mod 10)) ""
  end.

(** [a / b] rounded to the nearest integer, ties to even ([a >= 0], [b > 0]). *)
Definition round_div (a b : Z) : Z :=
  let q := a / b in
  let r := a mod b in
  if 2 * r <? b then q else if b <? 2 * r then q + 1 else if Z.even q then q else q + 1.

(** [%.<p>lf] of the non-negative rational [a / b]. *)
Definition fmt_fixed (p : nat) (a b : Z) : string :=
  let n := round_div (a * 10 ^ Z.of_nat p) b in
  show 400 (n / 10 ^ Z.of_nat p) ++ "." ++ show_pad p (n mod 10 ^ Z.of_nat p).

(** The sign and the special values of [%lf] and [%le]; a NaN prints as in the
    GNU C library. *)
Definition with_sign (b : Z) (f : Z -> string) : string :=
  let sg := if b / 2 ^ 63 mod 2 =? 0 then "" else "-" in
  match num64 b with
  | NaN => sg ++ "nan"
  | MInf | PInf => sg ++ "inf"
  | Fin v => sg ++ f (Z.abs v)
  end.

(** [%.<p>lf] of a [double]. *)
Definition fmt_lf (p : nat) (b : Z) : string := with_sign b (fun v => fmt_fixed p v (2 ^ 1074)).

(** The largest [e] with [10^e <= a / b], searched upwards or downwards from 0 ([exponent_ok] in
    L_Text.v: 400 steps are enough for a [double]). *)
Fixpoint exp10_up (fuel : nat) (e a b : Z) : Z :=
  match fuel with
  | O => e
  | S f => if 10 * b <=? a then exp10_up f (e + 1) a (10 * b) else e
  end.
Fixpoint exp10_down (fuel : nat) (e a b : Z) : Z :=
  match fuel with
  | O => e
  | S f => if b <=? a then e else exp10_down f (e - 1) (10 * a) b
  end.
Definition exp10 (a b : Z) : Z := if b <=? a then exp10_up 400 0 a b else exp10_down 400 0 a b.

(** [%le] of a [double]: one digit, six decimals, exponent of at least two digits. *)
Definition fmt_sci (v : Z) : string :=
  let '(m, e) :=
    if v =? 0 then (0, 0) else
    let b := 2 ^ 1074 in
    let e := exp10 v b in
    let m := if 0 <=? 6 - e then round_div (v * 10 ^ (6 - e)) b else round_div v (b * 10 ^ (e - 6)) in
    if m =? 10 ^ 7 then (10 ^ 6, e + 1) else (m, e) in
  let ae := Z.abs e in
  String (digit (m / 10 ^ 6 mod 10)) ("." ++ show_pad 6 (m mod 10 ^ 6) ++ "e" ++
    (if e <? 0 then "-" else "+") ++ (if ae <? 100 then show_pad 2 ae else show_pad 3 ae)).
Definition fmt_le (b : Z) : string := with_sign b fmt_sci.

(** [sprintf(buf, ...)] into [char buf[cap]]: the text and its terminating NUL
    must fit. *)
Definition sprintf (cap : Z) (s : string) : res string :=
  if Z.of_nat (String.length s) <? cap then Ok s else UB.
