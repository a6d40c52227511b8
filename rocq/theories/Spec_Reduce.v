(** Specification vocabulary for the reducers of the library: a call of one of the
    reduction functions, and the values it meets. *)

From Coq Require Import ZArith List Bool.
From Verif Require Import Base M_Bytes M_Flags M_Loop M_RS1 M_RS2 M_RS3 Spec Spec_Loop Spec_Tec M_Reduce.
Import ListNotations.
Open Scope Z_scope.

(** In state [s] the function [fn] gives the values [vals] on the points [l] and leaves
    the state alone. *)
Definition gives {S T A} (s : S) (fn : A -> M S T) (l : list A) (vals : list T) : Prop :=
  Forall2 (fun p v => fn p s = Ret s v) l vals.

(** [reduction reduce ans s vals call]: [call] is a call of one of the 13 reduction functions
    with initial value [ans] and reducer [reduce], over a range with no inverted dimension,
    that meets the values [vals], in this order, when it is made in state [s]. *)
Inductive reduction {S T} (reduce : T -> T -> res T) (ans : T) (s : S) : list T -> M S T -> Prop :=
| red_N N_b N_e fn vals :
    0 <= N_b <= N_e -> N_e < UINT_MOD -> gives s fn (zrange N_b N_e) vals ->
    reduction reduce ans s vals (PD_Reduce_N N_b N_e ans reduce fn)
| red_1D chk r fn vals :
    box_ordered (faces1 r) -> gives s (call1 fn) (points (faces1 r)) vals ->
    reduction reduce ans s vals (PD_Reduce_1D chk r ans reduce fn)
| red_N_1D chk N_b N_e r fn vals :
    0 <= N_b <= N_e -> N_e < UINT_MOD -> box_ordered (faces1 r) ->
    gives s (call2 fn) (points ((N_b, N_e) :: faces1 r)) vals ->
    reduction reduce ans s vals (PD_Reduce_N_1D chk N_b N_e r ans reduce fn)
| red_2D chk r fn vals :
    box_ordered (faces2 r) -> gives s (call2 fn) (points (faces2 r)) vals ->
    reduction reduce ans s vals (PD_Reduce_2D chk r ans reduce fn)
| red_N_2D chk N_b N_e r fn vals :
    0 <= N_b <= N_e -> N_e < UINT_MOD -> box_ordered (faces2 r) ->
    gives s (call3 fn) (points ((N_b, N_e) :: faces2 r)) vals ->
    reduction reduce ans s vals (PD_Reduce_N_2D chk N_b N_e r ans reduce fn)
| red_3D chk r fn vals :
    box_ordered (faces3 r) -> gives s (call3 fn) (points (faces3 r)) vals ->
    reduction reduce ans s vals (PD_Reduce_3D chk r ans reduce fn)
| red_N_3D chk N_b N_e r fn vals :
    0 <= N_b <= N_e -> N_e < UINT_MOD -> box_ordered (faces3 r) ->
    gives s (call4 fn) (points ((N_b, N_e) :: faces3 r)) vals ->
    reduction reduce ans s vals (PD_Reduce_N_3D chk N_b N_e r ans reduce fn)
| red_1D_2 chk d r fn vals :
    0 <= d < 2 -> box_ordered (faces2 r) ->
    gives s (call1 fn) (points [dim_face (faces2 r) d]) vals ->
    reduction reduce ans s vals (PD_Reduce_1D_2 chk d r ans reduce fn)
| red_N_1D_2 chk N_b N_e d r fn vals :
    0 <= N_b <= N_e -> N_e < UINT_MOD -> 0 <= d < 2 -> box_ordered (faces2 r) ->
    gives s (call2 fn) (points [(N_b, N_e); dim_face (faces2 r) d]) vals ->
    reduction reduce ans s vals (PD_Reduce_N_1D_2 chk N_b N_e d r ans reduce fn)
| red_1D_3 chk d r fn vals :
    0 <= d < 3 -> box_ordered (faces3 r) ->
    gives s (call1 fn) (points [dim_face (faces3 r) d]) vals ->
    reduction reduce ans s vals (PD_Reduce_1D_3 chk d r ans reduce fn)
| red_N_1D_3 chk N_b N_e d r fn vals :
    0 <= N_b <= N_e -> N_e < UINT_MOD -> 0 <= d < 3 -> box_ordered (faces3 r) ->
    gives s (call2 fn) (points [(N_b, N_e); dim_face (faces3 r) d]) vals ->
    reduction reduce ans s vals (PD_Reduce_N_1D_3 chk N_b N_e d r ans reduce fn)
| red_2D_3 chk d e r fn vals :
    0 <= d < 3 -> 0 <= e < 3 -> box_ordered (faces3 r) ->
    gives s (call2 fn) (points [dim_face (faces3 r) d; dim_face (faces3 r) e]) vals ->
    reduction reduce ans s vals (PD_Reduce_2D_3 chk d e r ans reduce fn)
| red_N_2D_3 chk N_b N_e d e r fn vals :
    0 <= N_b <= N_e -> N_e < UINT_MOD -> 0 <= d < 3 -> 0 <= e < 3 -> box_ordered (faces3 r) ->
    gives s (call3 fn) (points [(N_b, N_e); dim_face (faces3 r) d; dim_face (faces3 r) e]) vals ->
    reduction reduce ans s vals (PD_Reduce_N_2D_3 chk N_b N_e d e r ans reduce fn).

(** What remains in [ans] after the call; [None] when the call is undefined. *)
Definition result {S T} (call : M S T) (s : S) : option T :=
  match call s with Ret _ v => Some v | _ => None end.

(** The number [n] is the greatest (least) of the numbers [l] that are not NaN. *)
Definition greatest (n : num) (l : list num) : Prop :=
  n <> NaN /\ In n l /\ Forall (fun m => m <> NaN -> num_le m n) l.
Definition least (n : num) (l : list num) : Prop :=
  n <> NaN /\ In n l /\ Forall (fun m => m <> NaN -> num_le n m) l.

(** The absolute value of a number. *)
Definition nabs (n : num) : num :=
  match n with NaN => NaN | MInf => PInf | Fin v => Fin (Z.abs v) | PInf => PInf end.

(** Bit patterns of the type. *)
Definition fpattern (t : ftype) (x : Z) : Prop := 0 <= x < 2 ^ fbits t.

(** No sum (product) of the initial value with the first so many values, nor the whole with
    the initial value once more, leaves the range of [int]. *)
Definition sums_fit (ans : Z) (l : list Z) : Prop :=
  (forall k, in_int (ans + zsum (firstn k l))) /\ in_int (ans + zsum l + ans).
Definition products_fit (ans : Z) (l : list Z) : Prop :=
  (forall k, in_int (ans * zprod (firstn k l))) /\ in_int (ans * zprod l * ans).
