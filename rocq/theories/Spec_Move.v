(** Specification vocabulary for the saving and loading of many components. *)

From Coq Require Import ZArith Ascii String List Bool.
From Verif Require Import Base M_Flags M_Bytes M_TecZone M_TecFile Spec_Tec Spec_Plt
  M_Heap M_World M_Read Spec Spec_Loop Spec_Array Spec_Hist Spec_Reach Spec_Read.
Import ListNotations.
Open Scope Z_scope.

(** Component [mv_comp] of array [mv_from] is variable [mv_name] of zone [mv_zone] of the file and is to be read into
    component [mv_into] of array [mv_to] of the other program. *)
Record move := mkMove { mv_from : nat; mv_comp : Z; mv_zone : Z; mv_name : string; mv_to : nat; mv_into : Z }.

(** The description [f] has it: the zone takes the interior of the array, the variable of that name are the bytes at
    [data_pt(mv_comp)]. *)
Definition saved {V} (w : world V) (aw : aworld V) (t : ctype) (wd : Z) (enc : V -> bytes) (f : tfile) (m : move) : Prop :=
  exists k o mem d z vv,
    healthy aw (mv_from m) /\ find w (mv_from m) = Some (k, o) /\ o_data o <> Null /\ 0 <= mv_comp m < k_N k /\
    image w k o (mv_comp m) wd enc mem /\ data_of t (Some mem) = Ok d /\
    in_uint (mv_zone m) /\ nth_error (f_zones f) (Z.to_nat (mv_zone m)) = Some z /\ takes_interior (k_locs k) (m_size o) z /\
    first_at (f_vars f) (mv_name m) vv /\ nth_error (z_data z) vv = Some d.

(** The slots it takes: those of the interior of the source, counted from the first point of the target's interior. *)
Definition lands {V} (w1 : world V) (m : move) (q : list Z) : Prop :=
  exists k o, find w1 (mv_from m) = Some (k, o) /\ in_box (corner (inner (k_locs k) (m_size o))) q.

(** The target can take it. *)
Definition takes {V1 V2} (w1 : world V1) (w2 : world V2) (aw2 : aworld V2) (m : move) : Prop :=
  exists k1 o1 k2 o2, find w1 (mv_from m) = Some (k1, o1) /\ find w2 (mv_to m) = Some (k2, o2) /\ healthy aw2 (mv_to m) /\
    0 <= mv_into m < k_N k2 /\ length (k_locs k2) = length (k_locs k1) /\
    Forall2 size_in (m_size o2) (inner (k_locs k1) (m_size o1)).

(** [w2'] is [w2] after the moves: the same objects; at the slots taken, values that [cast] makes of those of the source; all
    other components and slots as before. *)
Definition all_moved {V1 V2} (w1 : world V1) (w2 w2' : world V2) (aw2 : aworld V2) (cast : V1 -> V2) (ms : list move) : Prop :=
  objs w2' = objs w2 /\
  (forall m k1 o1 k2 o2 q v, In m ms -> find w1 (mv_from m) = Some (k1, o1) -> find w2 (mv_to m) = Some (k2, o2) ->
     lands w1 m q -> reads w1 k1 o1 (mv_comp m) q (Some v) -> reads w2' k2 o2 (mv_into m) q (Some (cast v))) /\
  (forall x k o n q v, find w2 x = Some (k, o) -> healthy aw2 x -> 0 <= n < k_N k -> in_box (slot_box (m_size o) (k_locs k)) q ->
     (forall m, In m ms -> mv_to m = x -> mv_into m = n -> ~ lands w1 m q) ->
     (reads w2' k o n q v <-> reads w2 k o n q v)).
