(** Properties C48 - C52: loops of client code over arrays, reductions, the example programs.

    Reading guide.  [after F h w aw] as in P_Access.v: world [w] is reached by a legal program; [intact aw]:
    no array was left half made by a memory failure.  [cell w p v]: element [p] exists in [w] and holds [v].
    [assign chk p ps g] is the statement [p = g(ps...)]; [get_all chk ps] reads elements.  [loop_ready] and
    [loop_done] are in Spec_Client.v. *)

From Coq Require Import ZArith List Bool Lia.
From Verif Require Import Base M_Flags M_Loop M_RS1 M_RS2 M_RS3 M_Heap M_PD1 M_PD2 M_PD3 M_World M_Client M_Examples
  Spec Spec_Loop Spec_Array Spec_Hist Spec_Reach Spec_Client L_Client L_Examples.
From Verif Require P_Access.
Import ListNotations.
Open Scope Z_scope.

Section Client.
Context {V : Type}.
Implicit Types (w : world V) (aw : aworld V) (h : list (op V)) (p : elt).

(** ** C48: loops of assignments *)

Theorem C48_loop_D1 chk F h w aw r tgt srcs g :
  after F h w aw -> intact aw -> box_ordered (faces1 r) ->
  loop_ready lex_lt (in_box (faces1 r)) tgt srcs w ->
  exists h' w' aw',
    PD_For_1D chk r (fun i => assign chk (tgt [i]) (srcs [i]) (g [i])) w = Ret w' tt /\
    after F (h ++ h') w' aw' /\ intact aw' /\ objs w' = objs w /\
    loop_done lex_lt (in_box (faces1 r)) tgt srcs g w w'.
Proof. exact (client_D1 chk F h w aw r tgt srcs g). Qed.
Print Assumptions C48_loop_D1.

Theorem C48_loop_D2 chk F h w aw r tgt srcs g :
  after F h w aw -> intact aw -> box_ordered (faces2 r) ->
  loop_ready lex_lt (in_box (faces2 r)) tgt srcs w ->
  exists h' w' aw',
    PD_For_2D chk r (fun i j => assign chk (tgt [i; j]) (srcs [i; j]) (g [i; j])) w = Ret w' tt /\
    after F (h ++ h') w' aw' /\ intact aw' /\ objs w' = objs w /\
    loop_done lex_lt (in_box (faces2 r)) tgt srcs g w w'.
Proof. exact (client_D2 chk F h w aw r tgt srcs g). Qed.
Print Assumptions C48_loop_D2.

Theorem C48_loop_D3 chk F h w aw r tgt srcs g :
  after F h w aw -> intact aw -> box_ordered (faces3 r) ->
  loop_ready lex_lt (in_box (faces3 r)) tgt srcs w ->
  exists h' w' aw',
    PD_For_3D chk r (fun i j k => assign chk (tgt [i; j; k]) (srcs [i; j; k]) (g [i; j; k])) w = Ret w' tt /\
    after F (h ++ h') w' aw' /\ intact aw' /\ objs w' = objs w /\
    loop_done lex_lt (in_box (faces3 r)) tgt srcs g w w'.
Proof. exact (client_D3 chk F h w aw r tgt srcs g). Qed.
Print Assumptions C48_loop_D3.

Theorem C48_loop_N_D1 chk F h w aw b e r tgt srcs g :
  after F h w aw -> intact aw -> 0 <= b <= e -> e < UINT_MOD -> box_ordered (faces1 r) ->
  loop_ready lex_lt (in_box ((b, e) :: faces1 r)) tgt srcs w ->
  exists h' w' aw',
    PD_For_N_1D chk b e r (fun n i => assign chk (tgt [n; i]) (srcs [n; i]) (g [n; i])) w = Ret w' tt /\
    after F (h ++ h') w' aw' /\ intact aw' /\ objs w' = objs w /\
    loop_done lex_lt (in_box ((b, e) :: faces1 r)) tgt srcs g w w'.
Proof. exact (client_N_D1 chk F h w aw b e r tgt srcs g). Qed.
Print Assumptions C48_loop_N_D1.

Theorem C48_loop_N_D2 chk F h w aw b e r tgt srcs g :
  after F h w aw -> intact aw -> 0 <= b <= e -> e < UINT_MOD -> box_ordered (faces2 r) ->
  loop_ready lex_lt (in_box ((b, e) :: faces2 r)) tgt srcs w ->
  exists h' w' aw',
    PD_For_N_2D chk b e r (fun n i j => assign chk (tgt [n; i; j]) (srcs [n; i; j]) (g [n; i; j])) w = Ret w' tt /\
    after F (h ++ h') w' aw' /\ intact aw' /\ objs w' = objs w /\
    loop_done lex_lt (in_box ((b, e) :: faces2 r)) tgt srcs g w w'.
Proof. exact (client_N_D2 chk F h w aw b e r tgt srcs g). Qed.
Print Assumptions C48_loop_N_D2.

Theorem C48_loop_N_D3 chk F h w aw b e r tgt srcs g :
  after F h w aw -> intact aw -> 0 <= b <= e -> e < UINT_MOD -> box_ordered (faces3 r) ->
  loop_ready lex_lt (in_box ((b, e) :: faces3 r)) tgt srcs w ->
  exists h' w' aw',
    PD_For_N_3D chk b e r (fun n i j k => assign chk (tgt [n; i; j; k]) (srcs [n; i; j; k]) (g [n; i; j; k])) w = Ret w' tt /\
    after F (h ++ h') w' aw' /\ intact aw' /\ objs w' = objs w /\
    loop_done lex_lt (in_box ((b, e) :: faces3 r)) tgt srcs g w w'.
Proof. exact (client_N_D3 chk F h w aw b e r tgt srcs g). Qed.
Print Assumptions C48_loop_N_D3.

(** ** C49: reductions of element expressions *)

Theorem C49_reduce_D1 {T} chk F h w aw r (reduce : T -> T -> res T) ans srcs vs (g : list Z -> list V -> T) :
  after F h w aw -> intact aw -> box_ordered (faces1 r) ->
  (forall q, in_box (faces1 r) q -> Forall2 (fun p v => cell w p (Some v)) (srcs q) (vs q)) ->
  PD_Reduce_1D chk r ans reduce (fun i => do* x := get_all chk (srcs [i]) in ret (g [i] x)) w =
  lift (let* t := fold_res reduce (map (fun q => g q (vs q)) (points (faces1 r))) ans in reduce t ans) w.
Proof. exact (client_reduce_D1 chk F h w aw r reduce ans srcs vs g). Qed.
Print Assumptions C49_reduce_D1.

Theorem C49_reduce_D2 {T} chk F h w aw r (reduce : T -> T -> res T) ans srcs vs (g : list Z -> list V -> T) :
  after F h w aw -> intact aw -> box_ordered (faces2 r) ->
  (forall q, in_box (faces2 r) q -> Forall2 (fun p v => cell w p (Some v)) (srcs q) (vs q)) ->
  PD_Reduce_2D chk r ans reduce (fun i j => do* x := get_all chk (srcs [i; j]) in ret (g [i; j] x)) w =
  lift (let* t := fold_res reduce (map (fun q => g q (vs q)) (points (faces2 r))) ans in reduce t ans) w.
Proof. exact (client_reduce_D2 chk F h w aw r reduce ans srcs vs g). Qed.
Print Assumptions C49_reduce_D2.

Theorem C49_reduce_D3 {T} chk F h w aw r (reduce : T -> T -> res T) ans srcs vs (g : list Z -> list V -> T) :
  after F h w aw -> intact aw -> box_ordered (faces3 r) ->
  (forall q, in_box (faces3 r) q -> Forall2 (fun p v => cell w p (Some v)) (srcs q) (vs q)) ->
  PD_Reduce_3D chk r ans reduce (fun i j k => do* x := get_all chk (srcs [i; j; k]) in ret (g [i; j; k] x)) w =
  lift (let* t := fold_res reduce (map (fun q => g q (vs q)) (points (faces3 r))) ans in reduce t ans) w.
Proof. exact (client_reduce_D3 chk F h w aw r reduce ans srcs vs g). Qed.
Print Assumptions C49_reduce_D3.

Theorem C49_reduce_N_D1 {T} chk F h w aw b e r (reduce : T -> T -> res T) ans srcs vs (g : list Z -> list V -> T) :
  after F h w aw -> intact aw -> 0 <= b <= e -> e < UINT_MOD -> box_ordered (faces1 r) ->
  (forall q, in_box ((b, e) :: faces1 r) q -> Forall2 (fun p v => cell w p (Some v)) (srcs q) (vs q)) ->
  PD_Reduce_N_1D chk b e r ans reduce (fun n i => do* x := get_all chk (srcs [n; i]) in ret (g [n; i] x)) w =
  lift (let* t := fold_res reduce (map (fun q => g q (vs q)) (points ((b, e) :: faces1 r))) ans in reduce t ans) w.
Proof. exact (client_reduce_N_D1 chk F h w aw b e r reduce ans srcs vs g). Qed.
Print Assumptions C49_reduce_N_D1.

Theorem C49_reduce_N_D2 {T} chk F h w aw b e r (reduce : T -> T -> res T) ans srcs vs (g : list Z -> list V -> T) :
  after F h w aw -> intact aw -> 0 <= b <= e -> e < UINT_MOD -> box_ordered (faces2 r) ->
  (forall q, in_box ((b, e) :: faces2 r) q -> Forall2 (fun p v => cell w p (Some v)) (srcs q) (vs q)) ->
  PD_Reduce_N_2D chk b e r ans reduce (fun n i j => do* x := get_all chk (srcs [n; i; j]) in ret (g [n; i; j] x)) w =
  lift (let* t := fold_res reduce (map (fun q => g q (vs q)) (points ((b, e) :: faces2 r))) ans in reduce t ans) w.
Proof. exact (client_reduce_N_D2 chk F h w aw b e r reduce ans srcs vs g). Qed.
Print Assumptions C49_reduce_N_D2.

Theorem C49_reduce_N_D3 {T} chk F h w aw b e r (reduce : T -> T -> res T) ans srcs vs (g : list Z -> list V -> T) :
  after F h w aw -> intact aw -> 0 <= b <= e -> e < UINT_MOD -> box_ordered (faces3 r) ->
  (forall q, in_box ((b, e) :: faces3 r) q -> Forall2 (fun p v => cell w p (Some v)) (srcs q) (vs q)) ->
  PD_Reduce_N_3D chk b e r ans reduce (fun n i j k => do* x := get_all chk (srcs [n; i; j; k]) in ret (g [n; i; j; k] x)) w =
  lift (let* t := fold_res reduce (map (fun q => g q (vs q)) (points ((b, e) :: faces3 r))) ans in reduce t ans) w.
Proof. exact (client_reduce_N_D3 chk F h w aw b e r reduce ans srcs vs g). Qed.
Print Assumptions C49_reduce_N_D3.

(** ** C50: Example_D1_heat *)

Theorem C50_heat_1D F chk N reps k (xf : Z -> V) cosf exact lap adv :
  2 <= N <= 1073741824 -> 1 <= reps < UINT_MOD -> (forall t, (t < 3)%nat -> F t = false) ->
  exists h w aw, heat1 chk N reps k xf cosf exact lap adv (start F) = Ret w tt /\ after F h w aw /\ intact aw /\
    forall i, 0 <= i < N ->
      cell w (u1 0 i) (Some (Nat.iter k (heat_step N lap adv) (fun i => cosf (xf i)) i)) /\
      cell w (u1 1 i) (Some (exact (xf i))).
Proof. exact (heat1_final F chk N reps k xf cosf exact lap adv). Qed.
Print Assumptions C50_heat_1D.

(** ** C51: Example_D2_heat *)

Theorem C51_heat_2D F chk Nx Ny reps k (xf yf : Z -> V) ini exact neg lapx lapy adv :
  2 <= Nx -> 2 <= Ny -> 2 * ((Nx + 2) * (Ny + 2)) < UINT_MOD -> 1 <= reps < UINT_MOD -> (forall t, (t < 6)%nat -> F t = false) ->
  exists h w aw, heat2 chk Nx Ny reps k xf yf ini exact neg lapx lapy adv (start F) = Ret w tt /\ after F h w aw /\ intact aw /\
    forall i j, 0 <= i < Nx -> 0 <= j < Ny ->
      cell w (u2 0 i j) (Some (Nat.iter k (heat_step2 Nx Ny neg lapx lapy adv) (fun i j => ini (xf i) (yf j)) i j)) /\
      cell w (u2 1 i j) (Some (exact (xf i) (yf j))).
Proof. exact (heat2_final F chk Nx Ny reps k xf yf ini exact neg lapx lapy adv). Qed.
Print Assumptions C51_heat_2D.

(** ** C52: Example_D1_integration *)

Theorem C52_integration F chk N reps (xf : Z -> V) root zero add mean :
  1 <= N < INT_MAX -> 0 <= reps < UINT_MOD -> (forall t, (t < 2)%nat -> F t = false) ->
  exists h w aw, integration chk N reps xf root zero add mean (start F, []) =
    Ret (w, concat (repeat [mean (total add zero (map xf (zrange 0 N)));
                            mean (total add zero (map (fun i => root (xf i)) (zrange 0 N)))] (Z.to_nat reps))) tt /\
    after F h w aw /\ intact aw /\
    forall i, 0 <= i < N -> cell w (xi i) (Some (xf i)) /\ cell w (fi 0 i) (Some (xf i)) /\ cell w (fi 1 i) (Some (root (xf i))).
Proof. exact (integration_final F chk N reps xf root zero add mean). Qed.
Print Assumptions C52_integration.

End Client.

(** ** Examples *)

Notation nofail := P_Access.nofail.

(** A 1D array with one component, interior 4, one point on each side; two elements are written. *)
Definition exc_h : list (op Z) :=
  [NewSized (K1 1 center) [(1, 4, 1)]; Write 0 0 [-1] [FC] 5; Write 0 0 [4] [FC] 9].
Definition exc_w : world Z := match exec true (start nofail) exc_h with Some (w, _) => w | None => start nofail end.
Definition exc_aw : aworld Z := fst (aexec nofail a_start exc_h).

Example exc_after : after nofail exc_h exc_w exc_aw.
Proof. split; [P_Access.legal_tac|]. split; [reflexivity|]. eexists. vm_compute. reflexivity. Qed.

Example exc_intact : intact exc_aw.
Proof. intros [|[|a]] k gs nb; discriminate. Qed.

Lemma exc_cell i v : -1 <= i < 5 -> st exc_aw (Elt 0 0 [i] [FC]) = v -> cell exc_w (Elt 0 0 [i] [FC]) v.
Proof.
  intros Hi Hv. apply (cell_iff nofail exc_h exc_w exc_aw _ _ exc_after exc_intact). split; [|exact Hv].
  exists (K1 1 center), [(1, 4, 1)]. split; [reflexivity|]. unfold accepts. cbn. lia.
Qed.

(** [a(0, i) = a(0, i - 1) + a(0, 4)] over the interior: what is used at a point was assigned at the point
    before, except at the first point; the loop may start and gives 14, 23, 32, 41. *)
Definition exc_r : rangeT1 := mkRange1 0 4.
Definition exc_tgt (q : list Z) : elt := Elt 0 0 q [FC].
Definition exc_srcs (q : list Z) : list elt := [Elt 0 0 [nth 0 q 0 - 1] [FC]; Elt 0 0 [4] [FC]].
Definition exc_g (q : list Z) (l : list Z) : Z := nth 0 l 0 + nth 1 l 0.

Example C48_ex : box_ordered (faces1 exc_r) /\ loop_ready lex_lt (in_box (faces1 exc_r)) exc_tgt exc_srcs exc_w.
Proof.
  split; [repeat constructor; cbn; unfold in_int; lia|].
  assert (B : forall q, in_box (faces1 exc_r) q <-> exists i, q = [i] /\ 0 <= i < 4).
  { intros q. split.
    - intros H. inversion H as [|? i ? q' Hi Hq]; subst. inversion Hq; subst. cbn in Hi. exists i. split; [reflexivity|lia].
    - intros (i & -> & Hi). repeat constructor; cbn; lia. }
  split; [|split].
  - intros q Hq. apply B in Hq. destruct Hq as (i & -> & Hi). eexists. apply exc_cell; [lia|reflexivity].
  - intros q q' Hq Hq' (_ & _ & E). apply B in Hq, Hq'. destruct Hq as (i & -> & Hi), Hq' as (i' & -> & Hi').
    cbn [exc_tgt p_at p_fl] in E. rewrite !slot1 in E. exact E.
  - intros q p Hq Hp. apply B in Hq. destruct Hq as (i & -> & Hi). cbn in Hp. destruct Hp as [<-|[<-|[]]].
    + eexists. split; [apply exc_cell; [lia|reflexivity]|]. assert (i = 0 \/ 0 < i) as [->|Hp] by lia.
      * left. discriminate.
      * right. exists [i - 1]. split; [apply B; exists (i - 1); split; [reflexivity|lia]|]. split.
        -- cbn. lia.
        -- split; [reflexivity|]. split; reflexivity.
    + eexists. split; [apply exc_cell; [lia|reflexivity]|]. left. discriminate.
Qed.

Example C48_ex_run :
  match PD_For_1D true exc_r (fun i => assign true (exc_tgt [i]) (exc_srcs [i]) (exc_g [i])) exc_w with
  | Ret w _ => map (fun i => snd (match step true w (Read 0 0 [i] [FC]) with Some x => x | None => (w, RDone) end)) [-1; 0; 1; 2; 3; 4]
  | _ => []
  end = map (fun v => RVal (Some v)) [5; 14; 23; 32; 41; 9].
Proof. vm_compute. reflexivity. Qed.

(** At both points of the range the sources are the two written elements; the sum starts from 100. *)
Definition exc_r2 : rangeT1 := mkRange1 0 2.
Example C49_ex :
  box_ordered (faces1 exc_r2) /\
  (forall q, in_box (faces1 exc_r2) q ->
     Forall2 (fun p v => cell exc_w p (Some v)) [Elt 0 0 [-1] [FC]; Elt 0 0 [4] [FC]] [5; 9]) /\
  PD_Reduce_1D true exc_r2 100 RF_SUM
    (fun i => do* x := get_all true [Elt 0 0 [-1] [FC]; Elt 0 0 [4] [FC]] in ret (i + nth 0 x 0 * nth 1 x 0)) exc_w =
  Ret exc_w (100 + (0 + 45) + (1 + 45) + 100).
Proof.
  split; [repeat constructor; cbn; unfold in_int; lia|]. split; [|vm_compute; reflexivity].
  intros q _. repeat constructor; apply exc_cell; (lia || reflexivity).
Qed.

(** What the element reads as, in a world that a computation returns. *)
Definition shown {A} (m : out (world Z) A) (a : nat) (n : Z) (fl : list flag) (q : list Z) : option Z :=
  match m with
  | Ret w _ => match step true w (Read a n q fl) with Some (_, RVal v) => v | _ => None end
  | _ => None
  end.

(** Heat on three points with integers: two steps from 0, 1, 4. *)
Definition exh_step := heat_step 3 (fun a b c => a - 2 * b + c) (fun u d => 10 * u + d).
Example C50_ex :
  2 <= 3 <= 1073741824 /\ 1 <= 1 < UINT_MOD /\
  map (shown (heat1 true 3 1 2 (fun i => i) (fun x => x * x) (fun x => - x) (fun a b c => a - 2 * b + c) (fun u d => 10 * u + d)
              (start nofail)) 1 0 [FC]) [[0]; [1]; [2]] =
  map (fun i => Some (Nat.iter 2 exh_step (fun i => i * i) i)) [0; 1; 2] /\
  map (Nat.iter 2 exh_step (fun i => i * i)) [0; 1; 2] = [40; 132; 296].
Proof. split; [lia|]. split; [lia|]. split; [vm_compute; reflexivity|vm_compute; reflexivity]. Qed.

Definition exh_step2 := heat_step2 2 2 Z.opp (fun a b c => a - 2 * b + c) (fun d a b c => d + (a - 2 * b + c)) (fun u d => 10 * u + d).
Example C51_ex :
  2 <= 2 /\ 2 * ((2 + 2) * (2 + 2)) < UINT_MOD /\
  map (shown (heat2 true 2 2 1 1 (fun i => i) (fun j => j) (fun x y => x + 3 * y) (fun x y => x * y) Z.opp
              (fun a b c => a - 2 * b + c) (fun d a b c => d + (a - 2 * b + c)) (fun u d => 10 * u + d) (start nofail)) 1 0 [FC; FC])
      [[0; 0]; [1; 1]] =
  map (fun q => Some (call2 (Nat.iter 1 exh_step2 (fun i j => i + 3 * j)) q)) [[0; 0]; [1; 1]].
Proof. split; [lia|]. split; [lia|]. vm_compute. reflexivity. Qed.

Example C52_ex :
  1 <= 3 < INT_MAX /\ 0 <= 2 < UINT_MOD /\
  match integration true 3 2 (fun i => i) (fun x => x * x) 7 Z.add (fun s => 10 * s) (start nofail : world Z, []) with
  | Ret (_, l) _ => l
  | _ => []
  end = [10 * (7 + (0 + 1 + 2) + 7); 10 * (7 + (0 + 1 + 4) + 7); 10 * (7 + (0 + 1 + 2) + 7); 10 * (7 + (0 + 1 + 4) + 7)].
Proof. split; [lia|]. split; [lia|]. vm_compute. reflexivity. Qed.
