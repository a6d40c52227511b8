(** Properties C21 - C23: loops and reductions.

    Reading guide (Spec_Loop.v): [points B] lists the points of the box [B],
    first coordinate outermost; [run l body] calls [body] on the elements of
    [l] in order and stops at the first call that does not return; [reduce_run]
    folds.  The state type [S] and the body are arbitrary, so the equations
    say which calls are made, in which order, and what is done when one
    throws ([Thr]) or is undefined ([Undef]). *)

From Coq Require Import ZArith List Bool Lia Sorting.Sorted.
From Verif Require Import Base M_Flags M_Loop M_RS1 M_RS2 M_RS3 Spec Spec_Loop L_Base L_RS L_Range L_Loop.
Import ListNotations.
Open Scope Z_scope.

Ltac ord_tac := repeat (apply Forall_cons || apply Forall_nil); unfold in_int; cbn; lia.

(** ** C21: PD_For loops *)

(** The list of points: exactly the points of the box, each once, in
    lexicographic order. *)
Theorem C21_points_enumerate B : (forall q, In q (points B) <-> in_box B q) /\ NoDup (points B) /\ StronglySorted lex_lt (points B).
Proof. exact (@points_enumerate B). Qed.
Print Assumptions C21_points_enumerate.

Theorem C21_PD_For_1D {S} chk r (fn : Z -> M S unit) s : box_ordered (faces1 r) -> PD_For_1D chk r fn s = run (points (faces1 r)) (call1 fn) s.
Proof. exact (@loop_D1 S chk r fn s). Qed.
Print Assumptions C21_PD_For_1D.

Theorem C21_PD_For_N_1D {S} chk N_b N_e r (fn : Z -> Z -> M S unit) s :
  0 <= N_b <= N_e -> N_e < UINT_MOD -> box_ordered (faces1 r) ->
  PD_For_N_1D chk N_b N_e r fn s = run (points ((N_b, N_e) :: faces1 r)) (call2 fn) s.
Proof. exact (@loop_N_D1 S chk N_b N_e r fn s). Qed.
Print Assumptions C21_PD_For_N_1D.

Theorem C21_PD_For_2D {S} chk r (fn : Z -> Z -> M S unit) s : box_ordered (faces2 r) -> PD_For_2D chk r fn s = run (points (faces2 r)) (call2 fn) s.
Proof. exact (@loop_D2 S chk r fn s). Qed.
Print Assumptions C21_PD_For_2D.

Theorem C21_PD_For_N_2D {S} chk N_b N_e r (fn : Z -> Z -> Z -> M S unit) s :
  0 <= N_b <= N_e -> N_e < UINT_MOD -> box_ordered (faces2 r) ->
  PD_For_N_2D chk N_b N_e r fn s = run (points ((N_b, N_e) :: faces2 r)) (call3 fn) s.
Proof. exact (@loop_N_D2 S chk N_b N_e r fn s). Qed.
Print Assumptions C21_PD_For_N_2D.

Theorem C21_PD_For_3D {S} chk r (fn : Z -> Z -> Z -> M S unit) s : box_ordered (faces3 r) -> PD_For_3D chk r fn s = run (points (faces3 r)) (call3 fn) s.
Proof. exact (@loop_D3 S chk r fn s). Qed.
Print Assumptions C21_PD_For_3D.

Theorem C21_PD_For_N_3D {S} chk N_b N_e r (fn : Z -> Z -> Z -> Z -> M S unit) s :
  0 <= N_b <= N_e -> N_e < UINT_MOD -> box_ordered (faces3 r) ->
  PD_For_N_3D chk N_b N_e r fn s = run (points ((N_b, N_e) :: faces3 r)) (call4 fn) s.
Proof. exact (@loop_N_D3 S chk N_b N_e r fn s). Qed.
Print Assumptions C21_PD_For_N_3D.

Theorem C21_PD_For_reduced_dimensions {S} chk :
  (forall d r (fn : Z -> M S unit) s, 0 <= d < 2 -> box_ordered (faces2 r) ->
     PD_For_1D_2 chk d r fn s = run (points [dim_face (faces2 r) d]) (call1 fn) s) /\
  (forall N_b N_e d r (fn : Z -> Z -> M S unit) s,
     0 <= N_b <= N_e -> N_e < UINT_MOD -> 0 <= d < 2 -> box_ordered (faces2 r) ->
     PD_For_N_1D_2 chk N_b N_e d r fn s =
     run (points [(N_b, N_e); dim_face (faces2 r) d]) (call2 fn) s) /\
  (forall d r (fn : Z -> M S unit) s, 0 <= d < 3 -> box_ordered (faces3 r) ->
     PD_For_1D_3 chk d r fn s = run (points [dim_face (faces3 r) d]) (call1 fn) s) /\
  (forall N_b N_e d r (fn : Z -> Z -> M S unit) s,
     0 <= N_b <= N_e -> N_e < UINT_MOD -> 0 <= d < 3 -> box_ordered (faces3 r) ->
     PD_For_N_1D_3 chk N_b N_e d r fn s =
     run (points [(N_b, N_e); dim_face (faces3 r) d]) (call2 fn) s) /\
  (forall d e r (fn : Z -> Z -> M S unit) s, 0 <= d < 3 -> 0 <= e < 3 -> box_ordered (faces3 r) ->
     PD_For_2D_3 chk d e r fn s =
     run (points [dim_face (faces3 r) d; dim_face (faces3 r) e]) (call2 fn) s) /\
  (forall N_b N_e d e r (fn : Z -> Z -> Z -> M S unit) s,
     0 <= N_b <= N_e -> N_e < UINT_MOD -> 0 <= d < 3 -> 0 <= e < 3 -> box_ordered (faces3 r) ->
     PD_For_N_2D_3 chk N_b N_e d e r fn s =
     run (points [(N_b, N_e); dim_face (faces3 r) d; dim_face (faces3 r) e]) (call3 fn) s).
Proof. exact (@loop_reduced S chk). Qed.
Print Assumptions C21_PD_For_reduced_dimensions.

Theorem C21_PD_For_N {S} N_b N_e (fn : Z -> M S unit) s : 0 <= N_b <= N_e -> N_e < UINT_MOD -> PD_For_N N_b N_e fn s = run (zrange N_b N_e) fn s.
Proof. exact (@loop_components S N_b N_e fn s). Qed.
Print Assumptions C21_PD_For_N.

(** A body that records the points it is called on, and throws at one. *)
Example C21_ex :
  let r := mkRange2 (-1, 4) (2, 2) in
  let body := fun i j (s : list (Z * Z)) => if (i =? 0) && (j =? 5) then Thr s (EUser 7) else Ret (s ++ [(i, j)]) tt in
  box_ordered (faces2 r) /\
  PD_For_2D true r body [] = Thr [(-1, 4); (-1, 5); (0, 4)] (EUser 7).
Proof. split; [ord_tac | reflexivity]. Qed.

(** ** C22: inverted ranges *)

Theorem C22_inverted_never_returns_D1 {S} chk r (fn : Z -> M S unit) s s' : faces_int (faces1 r) -> inverted (faces1 r) -> PD_For_1D chk r fn s <> Ret s' tt.
Proof. exact (@inverted_D1 S chk r fn s s'). Qed.
Print Assumptions C22_inverted_never_returns_D1.

Theorem C22_inverted_never_returns_D2 {S} chk r (fn : Z -> Z -> M S unit) s s' : faces_int (faces2 r) -> inverted (faces2 r) -> PD_For_2D chk r fn s <> Ret s' tt.
Proof. exact (@inverted_D2 S chk r fn s s'). Qed.
Print Assumptions C22_inverted_never_returns_D2.

Theorem C22_inverted_never_returns_D3 {S} chk r (fn : Z -> Z -> Z -> M S unit) s s' : faces_int (faces3 r) -> inverted (faces3 r) -> PD_For_3D chk r fn s <> Ret s' tt.
Proof. exact (@inverted_D3 S chk r fn s s'). Qed.
Print Assumptions C22_inverted_never_returns_D3.

Theorem C22_inverted_is_undefined_D1 {S} chk r (fn : Z -> M S unit) s :
  faces_int (faces1 r) -> inverted (faces1 r) ->
  (forall x s, exists s', fn x s = Ret s' tt) -> PD_For_1D chk r fn s = Undef.
Proof. exact (@inverted_undef_D1 S chk r fn s). Qed.
Print Assumptions C22_inverted_is_undefined_D1.

Theorem C22_inverted_calls_D1 {S} chk r (fn : Z -> M S unit) s s' e :
  faces_int (faces1 r) -> inverted (faces1 r) ->
  PD_For_1D chk r fn s = Thr s' e ->
  run (zrange (r1_begin r) (INT_MAX + 1)) fn s = Thr s' e.
Proof. exact (@inverted_calls_D1 S chk r fn s s' e). Qed.
Print Assumptions C22_inverted_calls_D1.

Theorem C22_component_interval_wraps {S} N_b N_e (fn : Z -> M S unit) s :
  0 <= N_e < N_b -> N_b < UINT_MOD ->
  PD_For_N N_b N_e fn s = run (zrange N_b UINT_MOD ++ zrange 0 N_e) fn s.
Proof. exact (@component_interval_wraps S N_b N_e fn s). Qed.
Print Assumptions C22_component_interval_wraps.

Example C22_ex :
  let r := mkRange2 (0, 3) (2, -1) in
  faces_int (faces2 r) /\ inverted (faces2 r) /\
  cut_tail2 (mkRange2 (0, 3) (2, 4)) 0 5 = Ok r.
Proof.
  cbv zeta. split; [ord_tac|]. split; [|reflexivity].
  apply inverted_inside; [cbn; lia|]. apply inverted_here. cbn; lia.
Qed.

(** ** C23: reductions *)

Theorem C23_PD_Reduce_1D {S T} chk r ans (reduce : T -> T -> res T) (fn : Z -> M S T) s :
  box_ordered (faces1 r) ->
  PD_Reduce_1D chk r ans reduce fn s = reduce_run reduce (points (faces1 r)) (call1 fn) ans ans s.
Proof. exact (@reduce_D1 S T chk r ans reduce fn s). Qed.
Print Assumptions C23_PD_Reduce_1D.

Theorem C23_PD_Reduce_N_1D {S T} chk N_b N_e r ans (reduce : T -> T -> res T) (fn : Z -> Z -> M S T) s :
  0 <= N_b <= N_e -> N_e < UINT_MOD -> box_ordered (faces1 r) ->
  PD_Reduce_N_1D chk N_b N_e r ans reduce fn s =
  reduce_run reduce (points ((N_b, N_e) :: faces1 r)) (call2 fn) ans ans s.
Proof. exact (@reduce_N_D1 S T chk N_b N_e r ans reduce fn s). Qed.
Print Assumptions C23_PD_Reduce_N_1D.

Theorem C23_PD_Reduce_2D {S T} chk r ans (reduce : T -> T -> res T) (fn : Z -> Z -> M S T) s :
  box_ordered (faces2 r) ->
  PD_Reduce_2D chk r ans reduce fn s = reduce_run reduce (points (faces2 r)) (call2 fn) ans ans s.
Proof. exact (@reduce_D2 S T chk r ans reduce fn s). Qed.
Print Assumptions C23_PD_Reduce_2D.

Theorem C23_PD_Reduce_N_2D {S T} chk N_b N_e r ans (reduce : T -> T -> res T) (fn : Z -> Z -> Z -> M S T) s :
  0 <= N_b <= N_e -> N_e < UINT_MOD -> box_ordered (faces2 r) ->
  PD_Reduce_N_2D chk N_b N_e r ans reduce fn s =
  reduce_run reduce (points ((N_b, N_e) :: faces2 r)) (call3 fn) ans ans s.
Proof. exact (@reduce_N_D2 S T chk N_b N_e r ans reduce fn s). Qed.
Print Assumptions C23_PD_Reduce_N_2D.

Theorem C23_PD_Reduce_3D {S T} chk r ans (reduce : T -> T -> res T) (fn : Z -> Z -> Z -> M S T) s :
  box_ordered (faces3 r) ->
  PD_Reduce_3D chk r ans reduce fn s = reduce_run reduce (points (faces3 r)) (call3 fn) ans ans s.
Proof. exact (@reduce_D3 S T chk r ans reduce fn s). Qed.
Print Assumptions C23_PD_Reduce_3D.

Theorem C23_PD_Reduce_N_3D {S T} chk N_b N_e r ans (reduce : T -> T -> res T) (fn : Z -> Z -> Z -> Z -> M S T) s :
  0 <= N_b <= N_e -> N_e < UINT_MOD -> box_ordered (faces3 r) ->
  PD_Reduce_N_3D chk N_b N_e r ans reduce fn s =
  reduce_run reduce (points ((N_b, N_e) :: faces3 r)) (call4 fn) ans ans s.
Proof. exact (@reduce_N_D3 S T chk N_b N_e r ans reduce fn s). Qed.
Print Assumptions C23_PD_Reduce_N_3D.

Theorem C23_PD_Reduce_reduced_dimensions {S T} chk ans (reduce : T -> T -> res T) :
  (forall d r (fn : Z -> M S T) s, 0 <= d < 2 -> box_ordered (faces2 r) ->
     PD_Reduce_1D_2 chk d r ans reduce fn s =
     reduce_run reduce (points [dim_face (faces2 r) d]) (call1 fn) ans ans s) /\
  (forall N_b N_e d r (fn : Z -> Z -> M S T) s,
     0 <= N_b <= N_e -> N_e < UINT_MOD -> 0 <= d < 2 -> box_ordered (faces2 r) ->
     PD_Reduce_N_1D_2 chk N_b N_e d r ans reduce fn s =
     reduce_run reduce (points [(N_b, N_e); dim_face (faces2 r) d]) (call2 fn) ans ans s) /\
  (forall d r (fn : Z -> M S T) s, 0 <= d < 3 -> box_ordered (faces3 r) ->
     PD_Reduce_1D_3 chk d r ans reduce fn s =
     reduce_run reduce (points [dim_face (faces3 r) d]) (call1 fn) ans ans s) /\
  (forall N_b N_e d r (fn : Z -> Z -> M S T) s,
     0 <= N_b <= N_e -> N_e < UINT_MOD -> 0 <= d < 3 -> box_ordered (faces3 r) ->
     PD_Reduce_N_1D_3 chk N_b N_e d r ans reduce fn s =
     reduce_run reduce (points [(N_b, N_e); dim_face (faces3 r) d]) (call2 fn) ans ans s) /\
  (forall d e r (fn : Z -> Z -> M S T) s, 0 <= d < 3 -> 0 <= e < 3 -> box_ordered (faces3 r) ->
     PD_Reduce_2D_3 chk d e r ans reduce fn s =
     reduce_run reduce (points [dim_face (faces3 r) d; dim_face (faces3 r) e]) (call2 fn) ans ans s) /\
  (forall N_b N_e d e r (fn : Z -> Z -> Z -> M S T) s,
     0 <= N_b <= N_e -> N_e < UINT_MOD -> 0 <= d < 3 -> 0 <= e < 3 -> box_ordered (faces3 r) ->
     PD_Reduce_N_2D_3 chk N_b N_e d e r ans reduce fn s =
     reduce_run reduce (points [(N_b, N_e); dim_face (faces3 r) d; dim_face (faces3 r) e]) (call3 fn) ans ans s).
Proof. exact (@reduce_reduced S T chk ans reduce). Qed.
Print Assumptions C23_PD_Reduce_reduced_dimensions.

Theorem C23_PD_Reduce_N {S T} N_b N_e ans (reduce : T -> T -> res T) (fn : Z -> M S T) s :
  0 <= N_b <= N_e -> N_e < UINT_MOD ->
  PD_Reduce_N N_b N_e ans reduce fn s = reduce_run reduce (zrange N_b N_e) fn ans ans s.
Proof. exact (@reduce_components S T N_b N_e ans reduce fn s). Qed.
Print Assumptions C23_PD_Reduce_N.

(** The same with plain values: a left fold from the initial value, combined
    with the initial value once more. *)
Theorem C23_fold_twice_initial {S T} chk r ans (op : T -> T -> T) (f : Z -> Z -> Z -> T) (s : S) :
  box_ordered (faces3 r) ->
  PD_Reduce_3D chk r ans (fun x acc => Ok (op x acc)) (fun i j k => ret (f i j k)) s =
  Ret s (op (fold_left (fun a q => op (call3 f q) a) (points (faces3 r)) ans) ans).
Proof. exact (@reduce_fold_D3 S T chk r ans op f s). Qed.
Print Assumptions C23_fold_twice_initial.

(** What this means for the reducers shipped with the library. *)
Theorem C23_int_reducers {S} chk r ans (f : Z -> Z -> Z) (s s' : S) v :
  box_ordered (faces2 r) ->
  let fn := fun i j => ret (f i j) in
  let vals := map (call2 f) (points (faces2 r)) in
  (PD_Reduce_2D chk r ans RF_SUM fn s = Ret s' v -> v = ans + zsum vals + ans) /\
  (PD_Reduce_2D chk r ans RF_PRO fn s = Ret s' v -> v = ans * zprod vals * ans) /\
  PD_Reduce_2D chk r ans RF_MAX fn s = Ret s (fold_right Z.max ans vals) /\
  PD_Reduce_2D chk r ans RF_MIN fn s = Ret s (fold_right Z.min ans vals).
Proof. exact (@int_reducers_D2 S chk r ans f s s' v). Qed.
Print Assumptions C23_int_reducers.

(** PD_RF_MAX_ABS with a negative initial value: the second use of the initial
    value takes the absolute value of the accumulated one. *)
Theorem C23_max_abs_initial_refuted :
  exists (r : rangeT1) (ans : Z),
    points (faces1 r) = [] /\
    PD_Reduce_1D true r ans RF_MAX_ABS (fun i => ret i) tt = Ret tt (- ans) /\ ans < 0.
Proof. exact max_abs_witness. Qed.
Print Assumptions C23_max_abs_initial_refuted.

(** Sum over four points with initial value 10: the initial value counts twice. *)
Example C23_ex :
  let r := mkRange2 (1, 1) (2, 2) in
  box_ordered (faces2 r) /\
  PD_Reduce_2D true r 10 RF_SUM (fun i j => ret (i * j)) tt = Ret tt (10 + (1 + 2 + 2 + 4) + 10) /\
  PD_Reduce_2D true r 10 RF_MAX (fun i j => ret (i * j)) tt = Ret tt 10.
Proof. split; [ord_tac|]. split; reflexivity. Qed.
