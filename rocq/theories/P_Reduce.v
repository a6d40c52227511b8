(** C71: what the reducers shipped with the library compute. *)

From Coq Require Import ZArith List Bool Lia Permutation.
From Verif Require Import Base M_Bytes M_Flags M_Loop M_RS1 M_RS2 M_RS3 Spec Spec_Loop Spec_Tec M_Reduce Spec_Reduce L_Reduce.
Import ListNotations.
Open Scope Z_scope.

(** PD_RF_SUM(int): the sum with the initial value counted twice, or undefined, and undefined
    exactly when one of the sums on the way does not fit. *)
Theorem C71_sum {S} (s : S) ans vals call :
  in_int ans -> reduction RF_SUM ans s vals call ->
  (sums_fit ans vals -> call s = Ret s (ans + zsum vals + ans)) /\ (~ sums_fit ans vals -> call s = Undef).
Proof. exact (call_sum s ans vals call). Qed.
Print Assumptions C71_sum.

(** PD_RF_SUM_ABS(int), initial value not negative. *)
Theorem C71_sum_abs {S} (s : S) ans vals call :
  0 <= ans <= INT_MAX -> Forall in_int vals -> reduction RF_SUM_ABS ans s vals call ->
  call s = if ans + zsum (map Z.abs vals) + ans <=? INT_MAX then Ret s (ans + zsum (map Z.abs vals) + ans) else Undef.
Proof. exact (call_sum_abs s ans vals call). Qed.
Print Assumptions C71_sum_abs.

(** PD_RF_PRO(int) *)
Theorem C71_product {S} (s : S) ans vals call :
  in_int ans -> reduction RF_PRO ans s vals call ->
  (products_fit ans vals -> call s = Ret s (ans * zprod vals * ans)) /\ (~ products_fit ans vals -> call s = Undef).
Proof. exact (call_prod s ans vals call). Qed.
Print Assumptions C71_product.

(** PD_RF_PRO_ABS(int), initial value not negative. *)
Theorem C71_product_abs {S} (s : S) ans vals call :
  0 <= ans <= INT_MAX -> Forall in_int vals -> reduction RF_PRO_ABS ans s vals call ->
  let fit := ~ In INT_MIN vals /\ products_fit ans (map Z.abs vals) in
  (fit -> call s = Ret s (ans * zprod (map Z.abs vals) * ans)) /\ (~ fit -> call s = Undef).
Proof. exact (call_prod_abs s ans vals call). Qed.
Print Assumptions C71_product_abs.

(** PD_RF_MAX(int), PD_RF_MIN(int) *)
Theorem C71_extremes {S} (s : S) ans vals :
  (forall call, reduction RF_MAX ans s vals call -> call s = Ret s (fold_right Z.max ans vals)) /\
  (forall call, reduction RF_MIN ans s vals call -> call s = Ret s (fold_right Z.min ans vals)).
Proof. exact (call_extremes s ans vals). Qed.
Print Assumptions C71_extremes.

(** PD_RF_MAX_ABS(int), PD_RF_MIN_ABS(int) *)
Theorem C71_extremes_abs {S} (s : S) ans vals :
  in_int ans -> Forall in_int vals ->
  (forall call, reduction RF_MAX_ABS ans s vals call -> 0 <= ans \/ vals <> [] ->
     (In INT_MIN vals -> call s = Undef) /\
     (~ In INT_MIN vals -> call s = Ret s (fold_right Z.max ans (map Z.abs vals)))) /\
  (forall call, reduction RF_MIN_ABS ans s vals call -> ans <> INT_MIN ->
     (In INT_MIN vals -> call s = Undef) /\
     (~ In INT_MIN vals -> call s = Ret s (fold_right Z.min ans (map Z.abs vals)))).
Proof. exact (call_extremes_abs s ans vals). Qed.
Print Assumptions C71_extremes_abs.

(** PD_RF_MAX and PD_RF_MIN at [float] and [double], initial value not NaN: one of the values
    met or the initial value, and the greatest (least) of those that are not NaN. *)
Theorem C71_floating {S} (s : S) t ans vals :
  fval t ans <> NaN ->
  (forall call, reduction (RF_MAX_fp t) ans s vals call ->
     exists v, call s = Ret s v /\ In v (ans :: vals) /\ greatest (fval t v) (map (fval t) (ans :: vals))) /\
  (forall call, reduction (RF_MIN_fp t) ans s vals call ->
     exists v, call s = Ret s v /\ In v (ans :: vals) /\ least (fval t v) (map (fval t) (ans :: vals))).
Proof. exact (call_fp s t ans vals). Qed.
Print Assumptions C71_floating.

(** PD_RF_MAX_ABS and PD_RF_MIN_ABS at [float] and [double], initial value not negative. *)
Theorem C71_floating_abs {S} (s : S) t ans vals :
  Forall (fpattern t) vals -> num_le (Fin 0) (fval t ans) ->
  (forall call, reduction (RF_MAX_ABS_fp t) ans s vals call ->
     exists v, call s = Ret s v /\ greatest (fval t v) (fval t ans :: map (fun x => nabs (fval t x)) vals)) /\
  (forall call, reduction (RF_MIN_ABS_fp t) ans s vals call ->
     exists v, call s = Ret s v /\ least (fval t v) (fval t ans :: map (fun x => nabs (fval t x)) vals)).
Proof. exact (call_fp_abs s t ans vals). Qed.
Print Assumptions C71_floating_abs.

(** An initial value that is NaN hides all values. *)
Theorem C71_nan {S} (s : S) t ans vals reduce call :
  fval t ans = NaN -> In reduce [RF_MAX_fp t; RF_MIN_fp t; RF_MAX_ABS_fp t; RF_MIN_ABS_fp t] ->
  reduction reduce ans s vals call -> call s = Ret s ans.
Proof. exact (call_fp_nan s t ans vals reduce call). Qed.
Print Assumptions C71_nan.

(** The same values met in another order, by another call, give the same result. *)
Theorem C71_order {S S'} reduce ans vals vals' (s : S) (s' : S') call call' v v' :
  In reduce [RF_SUM; RF_SUM_ABS; RF_PRO; RF_PRO_ABS; RF_MAX; RF_MAX_ABS; RF_MIN; RF_MIN_ABS] ->
  0 <= ans <= INT_MAX -> Forall in_int vals -> Permutation vals vals' ->
  reduction reduce ans s vals call -> reduction reduce ans s' vals' call' ->
  result call s = Some v -> result call' s' = Some v' -> v = v'.
Proof. exact (@order_int S S' reduce ans vals vals' s s' call call' v v'). Qed.
Print Assumptions C71_order.

Theorem C71_floating_order {S S'} t reduce ans vals vals' (s : S) (s' : S') call call' v v' :
  In reduce [RF_MAX_fp t; RF_MIN_fp t] /\ fval t ans <> NaN \/
  In reduce [RF_MAX_ABS_fp t; RF_MIN_ABS_fp t] /\ num_le (Fin 0) (fval t ans) ->
  Forall (fpattern t) vals -> Permutation vals vals' ->
  reduction reduce ans s vals call -> reduction reduce ans s' vals' call' ->
  result call s = Some v -> result call' s' = Some v' -> fval t v = fval t v'.
Proof. exact (@order_fp S S' t reduce ans vals vals' s s' call call' v v'). Qed.
Print Assumptions C71_floating_order.

(** Whether the call is defined may depend on the order: the largest [int], one more and one
    less in one order pass the range, in the other they do not. *)
Theorem C71_order_defined_refuted :
  exists vals vals' call call',
    Permutation vals vals' /\ reduction RF_SUM 0 tt vals call /\ reduction RF_SUM 0 tt vals' call' /\
    call tt = Undef /\ call' tt = Ret tt INT_MAX.
Proof.
  exists [INT_MAX; 1; -1], [INT_MAX; -1; 1],
    (PD_Reduce_N 0 3 0 RF_SUM (fun n => ret (nth (Z.to_nat n) [INT_MAX; 1; -1] 0))),
    (PD_Reduce_N 0 3 0 RF_SUM (fun n => ret (nth (Z.to_nat n) [INT_MAX; -1; 1] 0))).
  split; [apply perm_skip, perm_swap|]. split; [|split; [|split; reflexivity]].
  - apply red_N; [lia|reflexivity|]. repeat (apply Forall2_cons; [reflexivity|]). apply Forall2_nil.
  - apply red_N; [lia|reflexivity|]. repeat (apply Forall2_cons; [reflexivity|]). apply Forall2_nil.
Qed.
Print Assumptions C71_order_defined_refuted.

(** A call over a plane of a field with values of both signs; and a call over four components
    with the values -1.5, NaN, 1.0 and -0.0 at [double]: the greatest absolute value is 1.5. *)
Example C71_ex :
  let plane := PD_Reduce_2D true (mkRange2 (1, 1) (2, 2)) 10 RF_SUM_ABS (fun i j => ret (i * j - 3)) in
  let vals := [13832806255468478464; 2 ^ 63 - 1; 4607182418800017408; 2 ^ 63] in
  let norm := PD_Reduce_N 0 4 0 (RF_MAX_ABS_fp Double) (fun n => ret (nth (Z.to_nat n) vals 0)) in
  reduction RF_SUM_ABS 10 tt [-2; -1; -1; 1] plane /\ plane tt = Ret tt 25 /\
  Forall (fpattern Double) vals /\ map (fval Double) vals = [Fin (-3 * 2 ^ 1073); NaN; Fin (2 ^ 1074); Fin 0] /\
  reduction (RF_MAX_ABS_fp Double) 0 tt vals norm /\ norm tt = Ret tt 4609434218613702656 /\
  fval Double 4609434218613702656 = Fin (3 * 2 ^ 1073).
Proof.
  cbv zeta. split; [|split; [reflexivity|split; [|split; [reflexivity|split; [|split; reflexivity]]]]].
  - apply red_2D; [repeat constructor; cbn; unfold in_int; lia|].
    repeat (apply Forall2_cons; [reflexivity|]). apply Forall2_nil.
  - repeat (apply Forall_cons; [unfold fpattern, fbits; lia|]). apply Forall_nil.
  - apply red_N; [lia|reflexivity|]. repeat (apply Forall2_cons; [reflexivity|]). apply Forall2_nil.
Qed.
