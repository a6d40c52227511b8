(** Specification vocabulary for read_plt. *)

From Coq Require Import ZArith Ascii String List Bool.
From Verif Require Import Base M_Flags M_Bytes M_TecZone M_TecFile Spec_Tec Spec_Plt
  M_Heap M_PD1 M_PD2 M_PD3 M_World M_Read Spec Spec_Loop Spec_Array Spec_Hist Spec_Reach.
From Verif Require Export Spec_Log.
Import ListNotations.
Open Scope list_scope.
Open Scope Z_scope.

Section Stages.
(** The files, the arguments of the call, the kind and the shape of the array; [starved]: the buffer
    cannot be allocated. *)
Variables (fs : files) (root : string) (log : file_log) (zone : Z) (name : string) (nn : Z).
Variables (k : kind) (gs : list dim_shape) (starved : Prop).

(** How far the call gets. *)
Definition located (z : zone_log) : Prop := nn < k_N k /\ nth_error (fl_zones log) (Z.to_nat zone) = Some z.
Definition sized (z : zone_log) : Prop := located z /\ Forall2 size_in gs (log_sizes k z).
Definition named (z : zone_log) (d : data_log) : Prop :=
  sized z /\ exists vv, first_at (f_vars (fl_file log)) name vv /\ nth_error (zl_data z) vv = Some d.
Definition opened (z : zone_log) (d : data_log) (b : bytes) : Prop :=
  named z d /\ fs (plt_path root log) = Some b /\ 0 <= dl_pt d.
Definition obtained (z : zone_log) (d : data_log) (b : bytes) : Prop :=
  opened z d b /\ ~ starved /\
  dl_pt d + product (log_sizes k z) * width (dl_type d) <= Z.of_nat (length b).
Definition readable (z : zone_log) (d : data_log) (b : bytes) : Prop :=
  obtained z d b /\ (dl_type d = 1 \/ dl_type d = 2).

(** The reasons to throw, in the order in which they are found. *)
Inductive refusal : exn -> Prop :=
| no_component : k_N k <= nn -> refusal (EN nn (k_N k - 1))
| no_zone : nn < k_N k -> Z.of_nat (length (fl_zones log)) <= zone -> refusal EZoneTooBig
| wrong_size z : located z -> ~ Forall2 size_in gs (log_sizes k z) -> refusal EFileSize
| no_name z : sized z -> ~ In name (f_vars (fl_file log)) -> refusal EVarNotFound
| no_file z d : named z d -> fs (plt_path root log) = None \/ dl_pt d < 0 -> refusal EOpen
| no_memory z d b : opened z d b -> starved -> refusal ENoMem
| too_short z d b :
    opened z d b -> ~ starved ->
    Z.of_nat (length b) < dl_pt d + product (log_sizes k z) * width (dl_type d) -> refusal ERead
| wrong_type z d b : obtained z d b -> dl_type d <> 1 -> dl_type d <> 2 -> refusal ETecType.
End Stages.

Section Effect.
Context {V : Type}.

(** [w'] is [w] after the low corner box of sizes [ss] of component [nn] of array [a] was overwritten
    with the values [val], and nothing else was done. *)
Definition overwritten (aw : aworld V) (w w' : world V) (k : kind) (a : nat) (o : obj) (nn : Z) (ss : list Z)
    (val : list Z -> option V) : Prop :=
  objs w' = objs w /\ (forall b, block (heap w) b <> None <-> block (heap w') b <> None) /\
  (forall n q v, 0 <= n < k_N k -> in_box (slot_box (m_size o) (k_locs k)) q ->
     (reads w' k o n q v <->
      if (n =? nn) && in_boxb (corner ss) q then v = val q else reads w k o n q v)) /\
  (forall x k' o' n q v, find w x = Some (k', o') -> healthy aw x -> x <> a ->
     (reads w' k' o' n q v <-> reads w k' o' n q v)).
End Effect.

(** ** Writing an array and reading it back *)

(** Three numbers, the missing ones being [x]. *)
Definition pad (x : Z) (l : list Z) : list Z := firstn 3 (l ++ [x; x; x]).

(** The zone takes the interior of an array at locations [ls] with shape [gs]: Max is the
    number of slots, Begin and End the numbers of points at the ends (Max_C, Begin_C and End_C count the
    dimensions backwards), Skip is 1, unused directions have one point. *)
Definition takes_interior (ls : list loc) (gs : list dim_shape) (z : zone) : Prop :=
  list3 (z_max z) = pad 1 (rev (map (fun '(g, l) => extent g l) (combine gs ls))) /\
  list3 (z_begin z) = pad 0 (rev (map (fun '(n, _, _) => n) gs)) /\
  list3 (z_end z) = pad 0 (rev (map (fun '(_, _, p) => p) gs)) /\
  list3 (z_skip z) = [1; 1; 1].

(** Its sizes: interior points, one more in half-located dimensions. *)
Definition inner (ls : list loc) (gs : list dim_shape) : list Z :=
  map (fun '((_, i, _), l) => i + loc_val l) (combine gs ls).

(** [mem] are the bytes at [data_pt(n)] of an array whose elements take [wd] bytes each, [enc v]
    for a value [v]; the bytes of elements never written are arbitrary. *)
Definition image {V} (w : world V) (k : kind) (o : obj) (n : Z) (wd : Z) (enc : V -> bytes) (mem : bytes) : Prop :=
  exists b c, m_data_pt false k (heap w) o n = Ok (Ptr b c) /\
    forall i v, 0 <= i < vol (slot_box (m_size o) (k_locs k)) ->
      load (heap w) (Ptr b (c + i)) = Ok (CVal v) -> element wd mem i = enc v.
