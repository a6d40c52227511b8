(** Specification vocabulary for statements about the states client programs
    reach. *)

From Coq Require Import ZArith String List Bool.
From Verif Require Import Base M_Flags M_Bytes M_TecZone M_TecFile M_Heap M_PD1 M_PD2 M_PD3 M_World Spec Spec_Loop Spec_Array Spec_Log Spec_Hist.
Import ListNotations.
Open Scope Z_scope.
Open Scope list_scope.

Section Reach.
Context {V : Type}.

(** The legal program [h] was run in checked mode, with the pattern [F] of
    memory failures; it led to the world [w], and the abstract machine is at
    [aw]. *)
Definition after (F : nat -> bool) (h : list (op V)) (w : world V) (aw : aworld V) : Prop :=
  legal_run F a_start h /\ aw = fst (aexec F a_start h) /\ exists rs, exec true (start F) h = Some (w, rs).

(** Array [a] was not left half made by an allocation that ran out of memory
    (possible for 2D and 3D arrays only, see C16). *)
Definition healthy (aw : aworld V) (a : nat) : Prop := forall k gs nb, afind aw a <> Some (k, ABroken gs nb).

(** The next [c] requests for memory succeed. *)
Definition memory_for (F : nat -> bool) (w : world V) (c : nat) : Prop :=
  forall t, (tick (heap w) <= t < tick (heap w) + c)%nat -> F t = false.

(** The call may change component [n] of slot [s] of array [a].  (For read_plt: [s] is in the low
    corner box that has the sizes of the logged zone.) *)
Definition disturbs (c : op V) (a : nat) (n : Z) (s : list Z) : bool :=
  match c with
  | Realloc a' _ | Clear a' | Destroy a' | DataWrite a' _ _ _ => Nat.eqb a' a
  | Write a' n' q fl _ => Nat.eqb a' a && (n' =? n) && zs_eqb (slot_of q fl) s
  | Copy d _ _ _ _ _ | CopyTag d _ _ _ _ _ | CopyFl d _ _ _ _ | CopyTagFl d _ _ _ _ => Nat.eqb d a
  | ReadPlt a' _ _ _ _ log zone _ nn =>
      Nat.eqb a' a && (nn =? n) &&
      match nth_error (fl_zones log) (Z.to_nat zone) with
      | Some z => in_boxb (corner (rev (firstn (length s) (list3 (r_max (zl_real z)))))) s
      | None => false
      end
  | _ => false
  end.

(** The blocks an object points at through the members it deletes in the end. *)
Definition ptr_block (p : ptr) : list nat := match p with Ptr b _ => [b] | _ => [] end.
Definition owned (o : obj) : list nat :=
  match o with
  | O1 o => ptr_block (pd1_data o)
  | O2 o => ptr_block (pd2_data o) ++ ptr_block (pd2_pt1 o)
  | O3 o => ptr_block (pd3_data o) ++ ptr_block (pd3_pt1 o) ++ ptr_block (pd3_pt2 o)
  end.

(** All blocks owned by the arrays of a world, array after array. *)
Definition all_owned (w : world V) : list nat :=
  flat_map (fun x => match x with Some (_, o) => owned o | None => [] end) (objs w).

(** Sized construction of a 2D or 3D array. *)
Definition may_leak (c : op V) : bool := match c with NewSized (K2 _ _ _) _ | NewSized (K3 _ _ _ _) _ => true | _ => false end.

End Reach.

(** ** Legal coordinates *)

(** Index [x] with flag [f] names a slot of a dimension: cells of a
    center-located dimension, faces of a half-located one. *)
Definition dim_ok (l : loc) (g : dim_shape) (x : Z) (f : flag) : Prop :=
  let '(n, i, p) := g in
  match l, f with
  | center, FC => - n <= x < i + p
  | half, FN => - n <= x <= i + p
  | half, FP => - n - 1 <= x < i + p
  | _, _ => False
  end.

Fixpoint dims_ok (ls : list loc) (gs : list dim_shape) (q : list Z) (fl : list flag) : Prop :=
  match ls, gs, q, fl with
  | [], [], [], [] => True
  | l :: ls', g :: gs', x :: q', f :: fl' => dim_ok l g x f /\ dims_ok ls' gs' q' fl'
  | _, _, _, _ => False
  end.

Definition accepts (k : kind) (gs : list dim_shape) (n : Z) (q : list Z) (fl : list flag) : Prop :=
  0 <= n < k_N k /\ dims_ok (k_locs k) gs q fl.

(** The answer to an element access: [None] is a reference; otherwise the first
    failing check of: data, component, flags, indices. *)
Definition access_answer (k : kind) (o : obj) (n : Z) (q : list Z) (fl : list flag) : option exn :=
  match o_data o with
  | Null => Some ENoData
  | _ => access_error (k_N k) (k_locs k) (m_size o) n q fl
  end.

(** Number of slots of a dimension. *)
Definition extent (g : dim_shape) (l : loc) : Z := let '(n, i, p) := g in n + i + p + loc_val l.

(** Distance of the slot named by index and flag from the low end. *)
Definition place (g : dim_shape) (x : Z) (f : flag) : Z := let '(n, i, p) := g in x + fl_offset f + n.

(** ** Copies *)

Section Copies.
Context {V : Type}.

(** Reading slot [s] of component [n] of the object [o] in world [w] through
    the operator() gives [v] ([None]: never written). *)
Definition reads (w : world V) (k : kind) (o : obj) (n : Z) (s : list Z) (v : option V) : Prop :=
  exists q fl p, accepts k (m_size o) n q fl /\ slot_of q fl = s /\
                 m_at true k (heap w) o n q fl = Ok p /\ fetch (heap w) p = Ok v.

(** The call [c] is a copy from array [s] (object [os]) to array [d] (object
    [od]) with the boxes [R] (destination) and [r] (source), the anchor [A] of
    the destination being put on the anchor [a] of the source. *)
Definition copies (c : op V) (k : kind) (d s : nat) (od os : obj) (R r : box) (A a : list Z) : Prop :=
  match c with
  | Copy d' s' R' r' A' a' =>
      d' = d /\ s' = s /\ R = range_box R' /\ r = range_box r' /\ A = A' /\ a = a' /\
      Forall (fun '(b, z) => in_int b /\ in_int z) (R' ++ r')
  | CopyFl d' s' R' r' fl =>
      d' = d /\ s' = s /\ R = range_box R' /\ r = range_box r' /\ A = edges R fl /\ a = edges r fl /\
      Forall (fun '(b, z) => in_int b /\ in_int z) (R' ++ r') /\ length fl = length (k_locs k)
  | CopyTag d' s' R' r' A' a' =>
      d' = d /\ s' = s /\ R = regions (m_size od) R' /\ r = regions (m_size os) r' /\ A = A' /\ a = a' /\
      length R' = length (k_locs k) /\ length r' = length (k_locs k)
  | CopyTagFl d' s' R' r' fl =>
      d' = d /\ s' = s /\ R = regions (m_size od) R' /\ r = regions (m_size os) r' /\ A = edges R fl /\ a = edges r fl /\
      length R' = length (k_locs k) /\ length r' = length (k_locs k) /\ length fl = length (k_locs k)
  | _ => False
  end.

Definition by_tags (c : op V) : Prop :=
  match c with CopyTag _ _ _ _ _ _ | CopyTagFl _ _ _ _ _ => True | _ => False end.

(** The zone written lies in the destination and the zone read in the source. *)
Definition copy_inside (k : kind) (od os : obj) (R r : box) (A a : list Z) : Prop :=
  forall q, in_box (copy_box (k_locs k) R r A a) q ->
    in_box (slot_box (m_size od) (k_locs k)) q /\ in_box (slot_box (m_size os) (k_locs k)) (partner A a q).

(** [w'] is [w] after the aligned overlap was copied from [os] to array [d], and
    nothing else was done. *)
Definition copied (aw : aworld V) (w w' : world V) (k : kind) (d : nat) (od os : obj) (R r : box) (A a : list Z) : Prop :=
  objs w' = objs w /\ (forall b, block (heap w) b <> None <-> block (heap w') b <> None) /\
  (forall n q v, 0 <= n < k_N k -> in_box (slot_box (m_size od) (k_locs k)) q ->
     (reads w' k od n q v <->
      if in_boxb (copy_box (k_locs k) R r A a) q then reads w k os n (partner A a q) v else reads w k od n q v)) /\
  (forall x k' o n q v, find w x = Some (k', o) -> healthy aw x -> x <> d -> (reads w' k' o n q v <-> reads w k' o n q v)).

End Copies.

(** The part of [f] at the end named by the flag, as long as the shorter of
    [f] and [g] (plus the extra slot of a half-located dimension). *)
Definition aligned_dim (l : loc) (f g : Z * Z) (fl : bflag) : Z * Z :=
  let z := Z.min (snd f - fst f) (snd g - fst g) in
  match fl with
  | BN => (fst f, fst f + z + loc_val l)
  | BP => (snd f - z, snd f + loc_val l)
  end.

Fixpoint aligned_box (ls : list loc) (R r : box) (fl : list bflag) : box :=
  match ls, R, r, fl with
  | l :: ls', f :: R', g :: r', b :: fl' => aligned_dim l f g b :: aligned_box ls' R' r' fl'
  | _, _, _, _ => []
  end.

(** Where the slot copied to [q] comes from: low ends on each other (flag N) or
    high ends on each other (flag P). *)
Fixpoint aligned_partner (R r : box) (fl : list bflag) (q : list Z) : list Z :=
  match R, r, fl, q with
  | f :: R', g :: r', b :: fl', x :: q' =>
      (match b with BN => fst g + (x - fst f) | BP => snd g + (x - snd f) end) :: aligned_partner R' r' fl' q'
  | _, _, _, _ => []
  end.

Definition flags_of {V} (c : op V) : list bflag :=
  match c with CopyFl _ _ _ _ fl | CopyTagFl _ _ _ _ fl => fl | _ => [] end.
Definition by_flags {V} (c : op V) : Prop :=
  match c with CopyFl _ _ _ _ _ | CopyTagFl _ _ _ _ _ => True | _ => False end.

(** ** The text of disp_data *)

Section Display.
Context {V : Type}.
(** The value of component [n] at slot [q]. *)
Variable val : Z -> list Z -> V.

Definition listed (n : Z) (q : list Z) : list (tok V) := [TVal (val n q); TStr ", "].
Definition ints (f : Z * Z) : list Z := zrange (fst f) (snd f).

(** 1D: a line for each slot, with all components.  2D: for each component a
    heading, a line for each first coordinate, an empty line.  3D: for each
    component a heading, for each first coordinate a heading and a line for each
    second coordinate, an empty line. *)
Definition display (k : kind) (B : box) : list (tok V) :=
  match k, B with
  | K1 N _, [f] => flat_map (fun x => flat_map (fun n => listed n [x]) (zrange 0 N) ++ [TEndl]) (ints f)
  | K2 N _ _, [f; g] =>
      flat_map (fun n => [TStr "N = "; TInt n; TEndl] ++
        flat_map (fun x => flat_map (fun y => listed n [x; y]) (ints g) ++ [TEndl]) (ints f) ++ [TEndl]) (zrange 0 N)
  | K3 N _ _ _, [f; g; h] =>
      flat_map (fun n => [TStr "N = "; TInt n; TEndl] ++
        flat_map (fun x => [TStr "i = "; TInt x; TEndl] ++
          flat_map (fun y => flat_map (fun z => listed n [x; y; z]) (ints h) ++ [TEndl]) (ints g)) (ints f) ++ [TEndl])
        (zrange 0 N)
  | _, _ => []
  end.
End Display.

(** The elements of a text. *)
Definition values {V} (t : list (tok V)) : list V := flat_map (fun x => match x with TVal v => [v] | _ => [] end) t.
