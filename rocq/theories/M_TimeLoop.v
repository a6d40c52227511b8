(** The time loop [for (;;)] of test/Example_D1_heat and test/Example_D2_heat with the arithmetic of [double] (M_FSum.v,
    M_FMul.v), around the passes of M_Examples.v.

    Not modelled: the clock; the console lines are kept as the pairs (step, flowtime) they show.
    Simplified: the arithmetic on the elements of the arrays is given by functions, as in M_Examples.v. *)

From Coq Require Import ZArith Ascii String List Bool.
From Verif Require Import Base M_Bytes M_Scan M_Reduce M_FSum M_FMul M_Flags M_Loop M_RS1 M_RS2 M_Heap M_PD1 M_PD2 M_World M_Client M_Print.
From Verif Require M_Examples.
Import ListNotations.
Open Scope list_scope.
Open Scope Z_scope.

(** A literal of type [double] whose value is [a / b]; the compiler rounds it to nearest. *)
Definition lit (a b : Z) : Z := round_f64 a b.
(** [x - y] for [double] *)
Definition dsub (x y : Z) : Z := dadd x (fneg Double y).
(** [x >= y] for [double] *)
Definition dge (x y : Z) : bool :=
  match num64 x, num64 y with
  | NaN, _ | _, NaN => false
  | a, b => negb (num_lt a b)
  end.
(** [x > y] for [double] *)
Definition dgt (x y : Z) : bool := num_lt (num64 y) (num64 x).

(** Example_D1_heat.cpp:41-43 (Example_D2_heat.cpp:74-76): [step], [flowtime], [time_next_print], and the lines written to
    the console so far. *)
Record tstate := TS { step : Z; flowtime : Z; time_next_print : Z; lines : list (Z * Z) }.

(** Example_D1_heat.cpp:46-48 (Example_D2_heat.cpp:79-81). *)
Definition time_reset (t : tstate) : tstate := TS 0 0 0 (lines t).

(** Example_D1_heat.cpp:51-74 (Example_D2_heat.cpp:86-115), [for (;;) { body; ++step; flowtime += dt; ... }].
    Running out of [fuel] means that the loop has not ended after [fuel] passes. *)
Fixpoint for_ever {S} (fuel : nat) (dt stop print : Z) (body : M S unit) : M (S * tstate) unit :=
  match fuel with
  | O => fun _ => Undef
  | Datatypes.S fuel' =>
      on_fst body ;;;
      (fun st =>
         let '(s, t) := st in
         let n := uwrap (step t + 1) in
         let f := dadd (flowtime t) dt in
         if dge f stop then Ret (s, TS n f (time_next_print t) (lines t)) tt
         else if dge f (time_next_print t)
              then for_ever fuel' dt stop print body (s, TS n f (dadd (time_next_print t) print) (lines t ++ [(n, f)]))
              else for_ever fuel' dt stop print body (s, TS n f (time_next_print t) (lines t)))
  end.

(** Example_D1_heat.cpp:24, Example_D2_heat.cpp:28: [pi]. *)
Definition pi : Z := lit 31415926 10000000.

(** Example_D1_heat.cpp:22-29, [h] and [a_hh]; [N - 1] is [unsigned]. *)
Definition h1 (N : Z) : Z := ddiv (dsub pi (fneg Double pi)) (of_whole (uwrap (N - 1))).
Definition a_hh1 (N : Z) : Z := ddiv (ddiv (of_whole 2) (h1 N)) (h1 N).
(** Example_D1_heat.cpp:37-39 *)
Definition dt1 (N : Z) : Z := ddiv (lit 1 10) (a_hh1 N).
Definition time_stop1 : Z := lit 5 10.
Definition time_print1 : Z := ddiv time_stop1 (of_whole 20).

(** Example_D2_heat.cpp:29-43; [2 * pi] and [-2 * pi] convert the [int]. *)
Definition hx2 (N : Z) : Z := ddiv (dsub pi (fneg Double pi)) (of_whole (uwrap (uwrap (N + 1) - 1))).
Definition a_hh_x2 (N : Z) : Z := ddiv (ddiv (of_whole 4) (hx2 N)) (hx2 N).
Definition hy2 (N : Z) : Z :=
  ddiv (dsub (dmul (of_whole 2) pi) (dmul (of_whole (-2)) pi)) (of_whole (uwrap (uwrap (uwrap (2 * N) + 1) - 1))).
Definition a_hh_y2 (N : Z) : Z := ddiv (ddiv (of_whole 1) (hy2 N)) (hy2 N).
(** Example_D2_heat.cpp:70-72 *)
Definition dt2 (N : Z) : Z := ddiv (lit 1 10) (if dgt (a_hh_x2 N) (a_hh_y2 N) then a_hh_x2 N else a_hh_y2 N).
Definition time_stop2 : Z := lit 1 10.
Definition time_print2 : Z := ddiv time_stop2 (of_whole 20).

Section Runs.
Context {V : Type}.
Variable chk : bool.
Import M_Examples.

(** Example_D1_heat.cpp:31-77 *)
Definition heat1_run (fuel : nat) (N reps : Z) (xf : Z -> V) (cosf exact : V -> V) (lap : V -> V -> V -> V)
    (adv : V -> V -> V) : M (world V * tstate) unit :=
  on_fst (call chk (NewSized (K1 1 center) [(0, N, 0)])) ;;;
  on_fst (call chk (NewSized (K1 2 center) [(1, N, 1)])) ;;;
  on_fst (call chk (NewSized (K1 1 center) [(0, N, 0)])) ;;;
  on_fst (over1 chk 0 RIN (fun i => set chk (x1 i) (xf i))) ;;;
  exec_time reps
    (upd_snd time_reset ;;;
     on_fst (over1 chk 1 RIN (fun i => do* v := get chk (x1 i) in set chk (u1 0 i) (cosf v))) ;;;
     for_ever fuel (dt1 N) time_stop1 time_print1 (pass1 chk lap adv)) ;;;
  on_fst (over1 chk 1 RIN (fun i => do* v := get chk (x1 i) in set chk (u1 1 i) (exact v))).

(** Example_D2_heat.cpp:45-47, 65-119, without the Tecplot file (M_HeatFile.v). *)
Definition heat2_run (fuel : nat) (N reps : Z) (xf yf : Z -> V) (ini exact : V -> V -> V) (neg : V -> V)
    (lapx : V -> V -> V -> V) (lapy : V -> V -> V -> V -> V) (adv : V -> V -> V) : M (world V * tstate) unit :=
  on_fst (arrays2 chk (uwrap (N + 1)) (uwrap (uwrap (2 * N) + 1))) ;;;
  on_fst (over2 chk 0 RIN RIN (fun i j => set chk (x2 0 i j) (xf i) ;;; set chk (x2 1 i j) (yf j))) ;;;
  exec_time reps
    (upd_snd time_reset ;;;
     on_fst (over2 chk 1 RIN RIN (fun i j =>
       do* a := get chk (x2 0 i j) in do* b := get chk (x2 1 i j) in set chk (u2 0 i j) (ini a b))) ;;;
     for_ever fuel (dt2 N) time_stop2 time_print2 (pass2 chk neg lapx lapy adv)) ;;;
  on_fst (over2 chk 1 RIN RIN (fun i j =>
    do* a := get chk (x2 0 i j) in do* b := get chk (x2 1 i j) in set chk (u2 1 i j) (exact a b))).

End Runs.

(** Example_D1_heat.cpp:83-84 (Example_D2_heat.cpp:125-126): the lines written to the output file. *)
Definition time_line (t : tstate) : string := ("time: " ++ fmt_g (flowtime t) ++ NL)%string.
Definition step_line (t : tstate) : string := ("step: " ++ show 10 (step t) ++ NL)%string.
