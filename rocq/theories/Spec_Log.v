(** Specification vocabulary for the logs of written files, and for the data they point at. *)

From Coq Require Import ZArith Ascii String List Bool.
From Verif Require Import Base M_Flags M_Bytes M_TecZone M_TecFile Spec_Tec Spec_Plt M_Class M_Read
  Spec Spec_Loop Spec_Array.
Import ListNotations.
Open Scope list_scope.
Open Scope Z_scope.

(** The sizes of a zone in the order of the array's dimensions: the log lists the fastest direction
    first, an array its slowest dimension first. *)
Definition log_sizes (k : kind) (z : zone_log) : list Z :=
  rev (firstn (length (k_locs k)) (list3 (r_max (zl_real z)))).

(** A size that is positive and at most the interior size of a dimension;
    this for all dimensions. *)
Definition size_in (g : dim_shape) (s : Z) : Prop := let '(_, i, _) := g in 0 < s <= i.

Fixpoint sizes_inb (gs : list dim_shape) (ss : list Z) : bool :=
  match gs, ss with
  | [], [] => true
  | (_, i, _) :: gs', s :: ss' => (0 <? s) && (s <=? i) && sizes_inb gs' ss'
  | _, _ => false
  end.

(** The box at the low corner of the interior, and the position of a point in it, last
    coordinate fastest. *)
Definition corner (ss : list Z) : box := map (fun s => (0, s)) ss.
Fixpoint rank (ss q : list Z) : Z :=
  match ss, q with
  | _ :: ss', x :: q' => x * product ss' + rank ss' q'
  | _, _ => 0
  end.

(** [vv] is the first place of a name in a list; the place, if there is one. *)
Definition first_at (vars : list string) (name : string) (vv : nat) : Prop :=
  nth_error vars vv = Some name /\ forall i, (i < vv)%nat -> nth_error vars i <> Some name.

Fixpoint place_of (vars : list string) (name : string) : option nat :=
  match vars with
  | [] => None
  | v :: vars' => if String.eqb v name then Some O else option_map S (place_of vars' name)
  end.

(** A log as write_plt makes it: an entry for each variable in each zone, element sizes according
    to the types, sizes that are [int]. *)
Definition log_wf (log : file_log) : Prop :=
  Forall (fun z => length (zl_data z) = length (f_vars (fl_file log)) /\
                   Forall (fun d => 1 <= dl_type d <= 5 /\ dl_size d = width (dl_type d)) (zl_data z) /\
                   Forall in_int (list3 (r_max (zl_real z)))) (fl_zones log).

(** The file of a log, below a directory. *)
Definition plt_path (root : string) (log : file_log) : string := c_str (root ++ "/" ++ f_name (fl_file log) ++ ".plt").

(** Number [i] of the elements at position [pos] of a file, converted. *)
Definition stored {V} (of_float of_double : bytes -> option V) (type : Z) (b : bytes) (pos i : Z) : option V :=
  (if type =? 1 then of_float else of_double)
    (firstn (Z.to_nat (width type)) (skipn (Z.to_nat (pos + i * width type)) b)).
