(** Specification vocabulary for the texts of the point-data library. *)

From Coq Require Import ZArith Ascii String List Bool.
From Verif Require Import Base M_Flags M_RS1 M_RS2 M_RS3 M_Bytes M_TecZone M_TecFile M_Heap M_PD0 M_PD1 M_PD2 M_PD3 M_World
  Spec Spec_Loop Spec_Array Spec_Log Spec_Hist Spec_Reach M_Scan M_Texts.
Import ListNotations.
Open Scope string_scope.
Open Scope Z_scope.

(** ** Messages *)

(** [s] is a decimal number, [z] its value: a minus sign or none, then digits. *)
Fixpoint all_digits (s : string) : bool := match s with "" => true | String c s' => is_digit c && all_digits s' end.
Definition numeral (s : string) (z : Z) : Prop :=
  decimal s = Some z /\ (all_digits s = true \/ exists s', s = String "-" s' /\ all_digits s' = true).

(** A text is made of words and decimal numbers. *)
Inductive piece := W (s : string) | Num (z : Z).
Inductive spells : string -> list piece -> Prop :=
| spells_end : spells "" []
| spells_word s t l : spells t l -> spells (s ++ t) (W s :: l)
| spells_num s z t l : numeral s z -> spells t l -> spells (s ++ t) (Num z :: l).

(** The flag is one of those for the location. *)
Definition flag_fits (l : loc) (f : flag) : Prop :=
  match l, f with center, FC | half, FN | half, FP => True | _, _ => False end.

(** Name of a coordinate. *)
Definition axis (d : nat) : string := match d with O => "i" | S O => "j" | _ => "k" end.

(** [t] is a message that tells the first thing wrong with the access to component [n] at indices [q] with flags [fl]
    of the object [o] of class [k]:  there are no data; or the component does not exist; or dimension [d] is the first
    with a flag that does not fit its location; or dimension [d] is the first without the slot named.  The numbers are
    the argument itself and the arguments that would have been accepted: for a center-located dimension the first and
    the last index; for a half-located dimension the first index with flag P, the first with flag N, the last with flag
    P, the last with flag N. *)
Section Tells.
Variables (k : kind) (o : obj) (n : Z) (q : list Z) (fl : list flag).

Definition flags_fit_below (d : nat) : Prop :=
  forall j l f, (j < d)%nat -> nth_error (k_locs k) j = Some l -> nth_error fl j = Some f -> flag_fits l f.
Definition slots_exist_below (d : nat) : Prop :=
  forall j l g x f, (j < d)%nat -> nth_error (k_locs k) j = Some l -> nth_error (m_size o) j = Some g ->
    nth_error q j = Some x -> nth_error fl j = Some f -> dim_ok l g x f.

Inductive tells : string -> Prop :=
| tells_data : o_data o = Null -> tells "data do not exist"
| tells_component t :
    o_data o <> Null -> k_N k <= n ->
    spells t [W "N is out of range: "; Num n; W " range:["; Num 0; W ","; Num (k_N k - 1); W "]"] -> tells t
| tells_flag_center t d f :
    o_data o <> Null -> n < k_N k -> flags_fit_below d ->
    nth_error (k_locs k) d = Some center -> nth_error fl d = Some f -> ~ flag_fits center f ->
    spells t [W "dim["; Num (Z.of_nat d); W "]: flag must be [C] when location is [center]"] -> tells t
| tells_flag_half t d f :
    o_data o <> Null -> n < k_N k -> flags_fit_below d ->
    nth_error (k_locs k) d = Some half -> nth_error fl d = Some f -> ~ flag_fits half f ->
    spells t [W "dim["; Num (Z.of_nat d); W "]: flag must be [N] or [P] when location is [half]"] -> tells t
| tells_index_center t d g x lo hi :
    o_data o <> Null -> n < k_N k -> flags_fit_below (length (k_locs k)) -> slots_exist_below d ->
    nth_error (k_locs k) d = Some center -> nth_error (m_size o) d = Some g ->
    nth_error q d = Some x -> nth_error fl d = Some FC -> ~ dim_ok center g x FC ->
    (forall y, dim_ok center g y FC <-> lo <= y <= hi) ->
    spells t [W (axis d); W " is out of range: "; Num x; W " range:["; Num lo; W ","; Num hi; W "]"] -> tells t
| tells_index_half t d g x f loP loN hiP hiN :
    o_data o <> Null -> n < k_N k -> flags_fit_below (length (k_locs k)) -> slots_exist_below d ->
    nth_error (k_locs k) d = Some half -> nth_error (m_size o) d = Some g ->
    nth_error q d = Some x -> nth_error fl d = Some f -> ~ dim_ok half g x f ->
    (forall y, dim_ok half g y FP <-> loP <= y <= hiP) -> (forall y, dim_ok half g y FN <-> loN <= y <= hiN) ->
    spells t [W (axis d); W " is out of range: "; Num x; W (match f with FP => "(P)" | _ => "(N)" end);
              W " range:["; Num loP; W "(P),"; Num loN; W ","; Num hiP; W ","; Num hiN; W "(N)]"] -> tells t.
End Tells.

(** The numbers in an exception are values of the C++ types they have. *)
Definition numbers_ok (e : exn) : Prop :=
  match e with
  | EDim d m => in_uint d /\ in_int m
  | ERangeC d ii b l => 0 <= d < 3 /\ in_int ii /\ in_int b /\ in_int l
  | ERangeH d ii off b l e => 0 <= d < 3 /\ in_int ii /\ (off = 0 \/ off = 1) /\ in_int b /\ in_int (b - 1) /\ in_int l /\ in_int e
  | EN n m => in_uint n /\ in_int m
  | EFlagCenter d | EFlagHalf d | EInZero d => in_int d
  | _ => True
  end.

(** ** Ranges and sizes *)

(** First index and size in each dimension. *)
Definition range_dims (r : any_range) : list (Z * Z) :=
  match r with
  | AR1 r => [(r1_begin r, r1_size r)]
  | AR2 r => [(fst (r2_begin r), fst (r2_size r)); (snd (r2_begin r), snd (r2_size r))]
  | AR3 r => [(c0 (r3_begin r), c0 (r3_size r)); (c1 (r3_begin r), c1 (r3_size r)); (c2 (r3_begin r), c2 (r3_size r))]
  end.
(** The three sizes in each dimension. *)
Definition size_dims (s : any_size) : list dim_shape :=
  match s with AS1 s => shape1 s | AS2 s => shape2 s | AS3 s => shape3 s end.

Definition ints2 (x : Z * Z) : Prop := in_int (fst x) /\ in_int (snd x).
Definition ints3 (g : dim_shape) : Prop := let '(n, i, p) := g in in_int n /\ in_int i /\ in_int p.

(** ** Names *)

(** A type name without closing bracket.  (Mangled names consist of letters, digits and underscores.) *)
Fixpoint no_bracket (s : string) : Prop := match s with "" => True | String c s' => c <> "]"%char /\ no_bracket s' end.
