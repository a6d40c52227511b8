(** The characters of disp_data() for any element type, and the text of a floating point number. *)

From Coq Require Import ZArith Ascii String List Bool.
From Verif Require Import Base M_Bytes M_Heap.
Import ListNotations.
Open Scope string_scope.
Open Scope Z_scope.

(** disp_data (PointData_0D.hpp:93-102, PointData_1D.hpp:454-469, PointData_2D.hpp:582-604, PointData_3D.hpp:720-748) makes a
    fresh [std::ostringstream] and puts texts, integers and elements into it; [f] is what the stream makes of an element.
    [fmt_i] is what it makes of an [int] (M_Bytes.v). *)
Definition tok_as {V} (f : V -> string) (t : tok V) : string :=
  match t with TStr s => s | TInt z => fmt_i z | TVal v => f v | TEndl => NL end.
Definition render_as {V} (f : V -> string) (l : list (tok V)) : string := fold_right (fun t s => tok_as f t ++ s) "" l.

(** [stream << x] for a [double x] and a stream whose format was never changed is [%.6g] (libstdc++: the conversion [%.*g] with
    precision 6).  [v] is the absolute value in units of [2 ^ -1074], as in M_Bytes.v.

    Six digits and the exponent of the first. *)
Definition gen_pair (v : Z) : Z * Z :=
  if v =? 0 then (0, 0) else
  let b := 2 ^ 1074 in
  let e := exp10 v b in
  let m := if 0 <=? 5 - e then round_div (v * 10 ^ (5 - e)) b else round_div v (b * 10 ^ (e - 5)) in
  if m =? 10 ^ 6 then (10 ^ 5, e + 1) else (m, e).

(** The point and the [k] decimals of [n] without the zeros at the end; no point without decimals. *)
Fixpoint fraction (k : nat) (n : Z) : string :=
  match k with
  | O => ""
  | S k' => if n mod 10 =? 0 then fraction k' (n / 10) else "." ++ show_pad k n
  end.

(** Style [f] for exponents from -4 to 5, else style [e]. *)
Definition fmt_gen (v : Z) : string :=
  let '(m, e) := gen_pair v in
  if (-4 <=? e) && (e <? 6) then
    show 6 (m / 10 ^ (5 - e)) ++ fraction (Z.to_nat (5 - e)) (m mod 10 ^ (5 - e))
  else
    let ae := Z.abs e in
    show 1 (m / 10 ^ 5) ++ fraction 5 (m mod 10 ^ 5) ++ "e" ++
      (if e <? 0 then "-" else "+") ++ (if ae <? 100 then show_pad 2 ae else show_pad 3 ae).
Definition fmt_g (b : Z) : string := with_sign b fmt_gen.

(** A [float] is converted to [double] first. *)
Definition fmt_gf (b : Z) : string := fmt_g (f32_to_f64 b).
