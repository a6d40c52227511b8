(** liton_sp::debug::exec_except (lion_snippets.hpp:120-136), and programs made of calls of it, as the test programs are
    (for example test/Test_D2_PointData_C/Test_D2_PointData_C.cpp:36-52). *)

From Coq Require Import ZArith String List Bool.
From Verif Require Import Base M_Flags M_Loop M_Bytes M_Heap M_World M_Client M_Texts.
From Verif Require Import Spec_Loop.
Import ListNotations.
Open Scope string_scope.
Open Scope Z_scope.

(** The state of a program that writes to two streams: its own state, and the characters written to each of them. *)
Record desk (T : Type) := Desk { d_own : T; d_out : string; d_err : string }.
Arguments Desk {T} d_own d_out d_err.
Arguments d_own {T} d.
Arguments d_out {T} d.
Arguments d_err {T} d.

(** A part of the program that writes nothing. *)
Definition quiet {T A} (m : M T A) : M (desk T) A :=
  fun d => match m (d_own d) with
           | Ret t x => Ret (Desk t (d_out d) (d_err d)) x
           | Thr t e => Thr (Desk t (d_out d) (d_err d)) e
           | Undef => Undef
           end.
(** [out << s] and [except_out << s]. *)
Definition say {T} (s : string) : M (desk T) unit := fun d => Ret (Desk (d_own d) (d_out d ++ s) (d_err d)) tt.
Definition complain {T} (s : string) : M (desk T) unit := fun d => Ret (Desk (d_own d) (d_out d) (d_err d ++ s)) tt.

(** [catch (const std::exception &err)]: everything the libraries throw is a std::runtime_error or std::bad_alloc.  What
    a user's code throws ([EUser]) is taken not to be one. *)
Definition is_std (e : exn) : bool := match e with EUser _ => false | _ => true end.

(** lion_snippets.hpp:123-125.  The time (get_time, lines 47-59) and the random number, an [int] from 0 on, are
    parameters; [setw(10)] and [setfill('0')] make ten digits of it. *)
Definition stamp (time : string) (rnd : Z) : string := "[" ++ time ++ "|" ++ show_pad 10 rnd ++ "]: ".

(** lion_snippets.hpp:120-136.  [text] is [err.what()]. *)
Definition exec_except {T} (text : exn -> string) (time : string) (rnd : Z) (exp : M (desk T) unit) : M (desk T) unit :=
  fun d => match exp d with
           | Ret d' _ => say (stamp time rnd ++ "no exception" ++ NL) d'
           | Thr d' e =>
               if is_std e
               then (say (stamp time rnd ++ "with exception" ++ NL) ;;; complain (stamp time rnd ++ text e ++ NL)) d'
               else Thr d' e
           | Undef => Undef
           end.

Section Session.
Context {V : Type}.

(** A statement: a call of the library, or [out << a(n, q..., fl...) << endl] with the characters [print] of the value. *)
Inductive stmt :=
| Do (c : op V)
| Show (print : V -> string) (p : elt).

Definition run_stmt (chk : bool) (s : stmt) : M (desk (world V)) unit :=
  match s with
  | Do c => do* _ := quiet (call chk c) in ret tt
  | Show print p => do* v := quiet (get chk p) in say (print v ++ NL)
  end.

(** A sequence of exec_except: for each of them the time, the random number and the statements. *)
Definition session (chk : bool) (text : exn -> string) (items : list (string * Z * list stmt)) : M (desk (world V)) unit :=
  run items (fun '(time, rnd, b) => exec_except text time rnd (run b (run_stmt chk))).

End Session.
Arguments stmt : clear implicits.
