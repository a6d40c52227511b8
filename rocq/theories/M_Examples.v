(** The numerical parts of the example programs test/Example_D1_heat, Example_D2_heat and
    Example_D1_integration.

    Not modelled: the output to the console and to text files and the clock.  The Tecplot file of Example_D2_heat is in
    M_HeatFile.v.  Simplified: the arithmetic of the element type is given by functions, one
    for each right hand side; the number [k] of passes of the time loop [for (;;)], which the
    programs end when the [double] [flowtime] has reached [time_stop], is a parameter. *)

From Coq Require Import ZArith List Bool.
From Verif Require Import Base M_Flags M_Loop M_RS1 M_RS2 M_RS3 M_Heap M_PD1 M_PD2 M_PD3 M_World M_Client.
Import ListNotations.
Open Scope Z_scope.

(** liton_cpp_snippets/lion_snippets.hpp:138-150, [exec_time]; the time measured is not modelled. *)
Definition exec_time {S} (N : Z) (exp : M S unit) : M S unit := for_uint 0 N (fun _ => exp).

(** [k] passes of a loop that is left at the end of a pass. *)
Fixpoint passes {S} (k : nat) (body : M S unit) : M S unit :=
  match k with
  | O => ret tt
  | Datatypes.S k' => body ;;; passes k' body
  end.

Section Heat1.
Context {V : Type}.
Variable chk : bool.

(** test/Example_D1_heat/Example_D1_heat.cpp:31-33: the arrays in order of construction. *)
Definition x1 (i : Z) : elt := Elt 0 0 [i] [FC].
Definition u1 (n i : Z) : elt := Elt 1 n [i] [FC].
Definition dudt1 (i : Z) : elt := Elt 2 0 [i] [FC].

(** [a.size().range(t)] and the loop over it, in one dimension. *)
Definition over1 (a : nat) (t : ra) (body : Z -> M (world V) unit) : M (world V) unit :=
  do* s := size_D1 a in do* r := lift (srange1 chk s t) in PD_For_1D chk r body.

(** Example_D1_heat.cpp:53-54: one side of the boundary condition. *)
Definition ghost1 (t : ra) (fl : bflag) : M (world V) unit :=
  over1 1 t (fun i =>
    do* s := size_D1 1 in do* i' := lift (mirror1 chk s 0 fl i) in
    do* v := get chk (u1 0 i') in set chk (u1 0 i) v).

(** Example_D1_heat.cpp:51-61, one pass of the time loop.
    [lap a b c] is [a_hh*(a - 2*b + c)], [adv a b] is [a + dt*b]. *)
Definition pass1 (lap : V -> V -> V -> V) (adv : V -> V -> V) : M (world V) unit :=
  ghost1 RN BN ;;;
  ghost1 RP BP ;;;
  over1 2 RIN (fun i =>
    do* im := lift (isub i 1) in do* ip := lift (iadd i 1) in
    do* a := get chk (u1 0 im) in do* b := get chk (u1 0 i) in do* c := get chk (u1 0 ip) in
    set chk (dudt1 i) (lap a b c)) ;;;
  over1 1 RIN (fun i =>
    do* a := get chk (u1 0 i) in do* b := get chk (dudt1 i) in set chk (u1 0 i) (adv a b)).

(** Example_D1_heat.cpp:31-77.  [xf i] is [x0 + i*h], [cosf] the initial value, [exact] the value
    written to component 1 at the end, [reps] the first argument of exec_time (2 in the file). *)
Definition heat1 (N reps : Z) (k : nat) (xf : Z -> V) (cosf exact : V -> V) (lap : V -> V -> V -> V)
    (adv : V -> V -> V) : M (world V) unit :=
  do* _ := call chk (NewSized (K1 1 center) [(0, N, 0)]) in
  do* _ := call chk (NewSized (K1 2 center) [(1, N, 1)]) in
  do* _ := call chk (NewSized (K1 1 center) [(0, N, 0)]) in
  over1 0 RIN (fun i => set chk (x1 i) (xf i)) ;;;
  exec_time reps
    (over1 1 RIN (fun i => do* v := get chk (x1 i) in set chk (u1 0 i) (cosf v)) ;;;
     passes k (pass1 lap adv)) ;;;
  over1 1 RIN (fun i => do* v := get chk (x1 i) in set chk (u1 1 i) (exact v)).

End Heat1.

Section Heat2.
Context {V : Type}.
Variable chk : bool.

(** test/Example_D2_heat/Example_D2_heat.cpp:45-47: the arrays in order of construction. *)
Definition x2 (n i j : Z) : elt := Elt 0 n [i; j] [FC; FC].
Definition u2 (n i j : Z) : elt := Elt 1 n [i; j] [FC; FC].
Definition dudt2 (i j : Z) : elt := Elt 2 0 [i; j] [FC; FC].

(** [a.size().range(t0, t1)] and the loop over it, in two dimensions. *)
Definition over2 (a : nat) (t0 t1 : ra) (body : Z -> Z -> M (world V) unit) : M (world V) unit :=
  do* s := size_D2 a in do* r := lift (srange2 chk s t0 t1) in PD_For_2D chk r body.

(** Example_D2_heat.cpp:88-89: boundary condition in the second dimension. *)
Definition ghost2_y (t : ra) (fl : bflag) : M (world V) unit :=
  over2 1 RIN t (fun i j =>
    do* s := size_D2 1 in do* j' := lift (mirror2 chk s 1 fl j) in
    do* v := get chk (u2 0 i j') in set chk (u2 0 i j) v).
(** Example_D2_heat.cpp:90-91: boundary condition in the first dimension, with a minus sign. *)
Definition ghost2_x (neg : V -> V) (t : ra) (fl : bflag) : M (world V) unit :=
  over2 1 t RIN (fun i j =>
    do* s := size_D2 1 in do* i' := lift (mirror2 chk s 0 fl i) in
    do* v := get chk (u2 0 i' j) in set chk (u2 0 i j) (neg v)).

(** Example_D2_heat.cpp:88-101, one pass of the time loop.  [lapx a b c] is [a_hh_x*(a - 2*b + c)],
    [lapy d a b c] is [d + a_hh_y*(a - 2*b + c)], [adv a b] is [a + dt*b]. *)
Definition pass2 (neg : V -> V) (lapx : V -> V -> V -> V) (lapy : V -> V -> V -> V -> V) (adv : V -> V -> V) : M (world V) unit :=
  ghost2_y RN BN ;;;
  ghost2_y RP BP ;;;
  ghost2_x neg RN BN ;;;
  ghost2_x neg RP BP ;;;
  over2 2 RIN RIN (fun i j =>
    do* im := lift (isub i 1) in do* ip := lift (iadd i 1) in
    do* a := get chk (u2 0 im j) in do* b := get chk (u2 0 i j) in do* c := get chk (u2 0 ip j) in
    set chk (dudt2 i j) (lapx a b c)) ;;;
  over2 2 RIN RIN (fun i j =>
    do* jm := lift (isub j 1) in do* jp := lift (iadd j 1) in
    do* a := get chk (u2 0 i jm) in do* b := get chk (u2 0 i j) in do* c := get chk (u2 0 i jp) in
    do* d := get chk (dudt2 i j) in
    set chk (dudt2 i j) (lapy d a b c)) ;;;
  over2 1 RIN RIN (fun i j =>
    do* b := get chk (dudt2 i j) in do* a := get chk (u2 0 i j) in set chk (u2 0 i j) (adv a b)).

(** Example_D2_heat.cpp:45-47. *)
Definition arrays2 (Nx Ny : Z) : M (world V) unit :=
  do* _ := call chk (NewSized (K2 2 center center) [(1, Nx, 1); (1, Ny, 1)]) in
  do* _ := call chk (NewSized (K2 2 center center) [(1, Nx, 1); (1, Ny, 1)]) in
  do* _ := call chk (NewSized (K2 1 center center) [(0, Nx, 0); (0, Ny, 0)]) in ret tt.

(** Example_D2_heat.cpp:65-68, 78-119.  [xf], [yf] are the coordinates, [ini] the initial value, [exact] the value written to
    component 1 at the end. *)
Definition solve2 (reps : Z) (k : nat) (xf yf : Z -> V) (ini exact : V -> V -> V) (neg : V -> V)
    (lapx : V -> V -> V -> V) (lapy : V -> V -> V -> V -> V) (adv : V -> V -> V) : M (world V) unit :=
  over2 0 RIN RIN (fun i j => set chk (x2 0 i j) (xf i) ;;; set chk (x2 1 i j) (yf j)) ;;;
  exec_time reps
    (over2 1 RIN RIN (fun i j =>
       do* a := get chk (x2 0 i j) in do* b := get chk (x2 1 i j) in set chk (u2 0 i j) (ini a b)) ;;;
     passes k (pass2 neg lapx lapy adv)) ;;;
  over2 1 RIN RIN (fun i j =>
    do* a := get chk (x2 0 i j) in do* b := get chk (x2 1 i j) in set chk (u2 1 i j) (exact a b)).

(** Example_D2_heat.cpp:45-47, 65-68, 78-119, without the output (see M_HeatFile.v). *)
Definition heat2 (Nx Ny reps : Z) (k : nat) (xf yf : Z -> V) (ini exact : V -> V -> V) (neg : V -> V)
    (lapx : V -> V -> V -> V) (lapy : V -> V -> V -> V -> V) (adv : V -> V -> V) : M (world V) unit :=
  arrays2 Nx Ny ;;; solve2 reps k xf yf ini exact neg lapx lapy adv.

End Heat2.

Section Integration.
Context {V : Type}.
Variable chk : bool.

(** test/Example_D1_integration/Example_D1_integration.cpp:28-29. *)
Definition xi (i : Z) : elt := Elt 0 0 [i] [FC].
Definition fi (n i : Z) : elt := Elt 1 n [i] [FC].

(** Example_D1_integration.cpp:28-52.  [xf i] is [i * h], [root] is [pow(x, 0.5)], [add x xx] is
    PD_RF_SUM, [mean s] is [s / (N - 1)].  The result is the list of the values written to the text
    file, in order ([reps] is 100 in the file, the array [sum] is local to each repetition). *)
Definition integration (N reps : Z) (xf : Z -> V) (root : V -> V) (zero : V) (add : V -> V -> V) (mean : V -> V) :
    M (world V * list V) unit :=
  on_fst (do* _ := call chk (NewSized (K1 1 center) [(0, N, 0)]) in
          do* _ := call chk (NewSized (K1 2 center) [(0, N, 0)]) in
          over1 chk 0 RALL (fun i =>
            set chk (xi i) (xf i) ;;;
            (do* v := get chk (xi i) in set chk (fi 0 i) v) ;;;
            (do* v := get chk (xi i) in set chk (fi 1 i) (root v)))) ;;;
  exec_time reps
    (PD_For_N 0 2 (fun n =>
       do* s := on_fst (do* sz := size_D1 1 in do* r := lift (srange1 chk sz RALL) in
                        PD_Reduce_1D chk r zero (fun x xx => Ok (add x xx)) (fun i => get chk (fi n i))) in
       upd_snd (fun out => out ++ [mean s]))).

End Integration.
