(** The abstract machine: what a client may expect of any number of arrays.
    An array is a shape and a map from (component, slot) to the last value
    stored; nothing is said about pointers, blocks or tables.  The only words
    taken from M_World.v are the syntax of calls ([op]) and of results. *)

From Coq Require Import ZArith String List Bool.
From Verif Require Import Base M_Flags M_Bytes M_TecZone M_TecFile M_Read Spec_Tec Spec_Plt Spec Spec_Loop Spec_Array
  M_World Spec_Log.
Import ListNotations.
Open Scope list_scope.
Open Scope Z_scope.

(** ** Coordinates *)

Fixpoint in_boxb (B : box) (q : list Z) : bool :=
  match B, q with
  | [], [] => true
  | f :: B', x :: q' => (fst f <=? x) && (x <? snd f) && in_boxb B' q'
  | _, _ => false
  end.

Definition zs_eqb (p q : list Z) : bool := if list_eq_dec Z.eq_dec p q then true else false.

(** Index plus flag, per dimension: the storage slot meant. *)
Definition slot_of (q : list Z) (fl : list flag) : list Z :=
  map (fun '(x, f) => x + fl_offset f) (combine q fl).

(** First dimension whose flag does not fit its location. *)
Fixpoint flag_error (d : Z) (ls : list loc) (fl : list flag) : option exn :=
  match ls, fl with
  | l :: ls', f :: fl' =>
      match l, f with
      | center, FC | half, FN | half, FP => flag_error (d + 1) ls' fl'
      | center, _ => Some (EFlagCenter d)
      | half, _ => Some (EFlagHalf d)
      end
  | _, _ => None
  end.

(** First dimension whose slot does not exist. *)
Fixpoint index_error (d : Z) (ls : list loc) (gs : list dim_shape) (q : list Z) (fl : list flag) : option exn :=
  match ls, gs, q, fl with
  | l :: ls', g :: gs', x :: q', f :: fl' =>
      if (fst (slots g l) <=? x + fl_offset f) && (x + fl_offset f <? snd (slots g l))
      then index_error (d + 1) ls' gs' q' fl'
      else Some (range_error l d x (fl_offset f) (region g RALL))
  | _, _, _, _ => None
  end.

(** Component first, then flags, then indices. *)
Definition access_error (N : Z) (ls : list loc) (gs : list dim_shape) (n : Z) (q : list Z) (fl : list flag) : option exn :=
  if N <=? n then Some (EN n (N - 1)) else
  match flag_error 0 ls fl with
  | Some e => Some e
  | None => index_error 0 ls gs q fl
  end.

(** The point at a row-major position. *)
Definition point_at (B : box) (a : Z) : list Z := nth (Z.to_nat a) (points B) [].

(** ** Shapes *)

(** First dimension with ghost points but no interior. *)
Fixpoint bad_dim (d : Z) (gs : list dim_shape) : option Z :=
  match gs with
  | [] => None
  | (n, i, p) :: gs' => if (i =? 0) && negb (n + p =? 0) then Some d else bad_dim (d + 1) gs'
  end.

(** A shape argument: right number of dimensions, numbers within [int], the
    total number of elements within [unsigned]. *)
Definition shape_arg (k : kind) (gs : list dim_shape) : Prop :=
  length gs = length (k_locs k) /\ Forall shape_ok gs /\ k_N k * vol (slot_box gs (k_locs k)) < UINT_MOD.

(** ** Copies *)

Definition meetb (f g : Z * Z) : bool := (fst f <? snd g) && (fst g <? snd f).
Definition meetsb (B C : box) : bool := forallb (fun '(f, g) => meetb f g) (combine B C).

Definition cap (f g : Z * Z) : Z * Z := (Z.max (fst f) (fst g), Z.min (snd f) (snd g)).
Definition caps (B C : box) : box := map (fun '(f, g) => cap f g) (combine B C).

(** One more slot at the high end (both ends) in half-located dimensions. *)
Definition widen_high (ls : list loc) (B : box) : box :=
  map (fun '(f, l) => (fst f, snd f + loc_val l)) (combine B ls).
Definition widen (ls : list loc) (B : box) : box :=
  map (fun '(f, l) => (fst f - loc_val l, snd f + loc_val l)) (combine B ls).

(** The destination slots written: points of [R] whose partner (anchor [A] of
    the destination on anchor [a] of the source) is in [r]. *)
Definition copy_box (ls : list loc) (R r : box) (A a : list Z) : box :=
  widen_high ls (caps R (shift_box (vsub A a) r)).

Definition partner (A a q : list Z) : list Z := vsub q (vsub A a).

(** The copy is refused: no overlap; or the array is copied onto itself and
    the zone read (generously: all of [R] moved, widened) meets the zone written. *)
Definition copy_error (ls : list loc) (same : bool) (R r : box) (A a : list Z) : option exn :=
  if negb (meetsb R (shift_box (vsub A a) r)) then Some EOverlapNotFound
  else if same && meetsb (widen ls (shift_box (vsub a A) R)) (caps R (shift_box (vsub A a) r))
       then Some ECopyOverlap
       else None.

(** The sums and differences of a copy fit [int]. *)
Definition dim_copy_fits (R r : Z * Z) (A a : Z) : Prop :=
  in_int (fst R) /\ in_int (snd R) /\ in_int (fst r) /\ in_int (snd r) /\
  fst R <= snd R /\ fst r <= snd r /\ in_int (snd r - fst r) /\ in_int (snd R - fst R + 2) /\
  in_int (A - a) /\ in_int (a - A) /\
  in_int (fst r + (A - a)) /\ in_int (snd r + (A - a)) /\
  in_int (fst R + (a - A) - 1) /\ in_int (snd R + (a - A) + 1) /\ in_int (snd R + 1) /\
  in_int (fst R - 1) /\ in_int (fst r - 1).

Fixpoint copy_fits (R r : box) (A a : list Z) : Prop :=
  match R, r, A, a with
  | [], [], [], [] => True
  | f :: R', g :: r', x :: A', y :: a' => dim_copy_fits f g x y /\ copy_fits R' r' A' a'
  | _, _, _, _ => False
  end.

(** The box of an explicit range (begin, size), of region tags; boundary points. *)
Definition range_box (r : range) : box := map (fun '(b, z) => (b, b + z)) r.
Definition regions (gs : list dim_shape) (ts : list ra) : box := map (fun '(g, t) => region g t) (combine gs ts).
Definition edges (B : box) (fl : list bflag) : list Z := map (fun '(f, b) => edge f b) (combine B fl).

(** ** The machine *)

Section Machine.
Context {V : Type}.
(** Which requests for memory fail. *)
Variable fails : nat -> bool.

Definition content := Z -> list Z -> option V.

(** [ABroken]: a failed allocation left shape and [nb] blocks, but no access. *)
Inductive arr :=
| AEmpty
| ALive (gs : list dim_shape) (f : content)
| ABroken (gs : list dim_shape) (nb : nat).

(** [a_tick]: requests for memory so far; [a_leak]: blocks lost for ever. *)
Record aworld := mkA { a_tick : nat; a_leak : nat; arrs : list (option (kind * arr)) }.

Definition afind (w : aworld) (a : nat) : option (kind * arr) :=
  match nth_error (arrs w) a with Some (Some x) => Some x | _ => None end.

Fixpoint put_nth {A} (l : list A) (k : nat) (x : A) : list A :=
  match l, k with
  | [], _ => []
  | _ :: t, O => x :: t
  | h :: t, S k' => h :: put_nth t k' x
  end.

Definition a_shape (k : kind) (a : arr) : list dim_shape :=
  match a with
  | AEmpty => map (fun _ => (0, 0, 0)) (k_locs k)
  | ALive gs _ => gs
  | ABroken gs _ => gs
  end.

Definition blank_content : content := fun _ _ => None.
Definition put_at (f : content) (n : Z) (q : list Z) (v : option V) : content :=
  fun n' q' => if (n' =? n) && zs_eqb q' q then v else f n' q'.

(** First failing request among [c] requests from number [t] on. *)
Fixpoint first_fail (t c : nat) : option nat :=
  match c with
  | O => None
  | S c' => if fails t then Some O else option_map S (first_fail (S t) c')
  end.

(** alloc on an empty array: requests made, new state, result.  There is one
    request per dimension (the elements, and a table per further dimension). *)
Definition a_alloc (t : nat) (k : kind) (gs : list dim_shape) : nat * arr * result V :=
  match bad_dim 0 gs with
  | Some d => (O, AEmpty, RExn (EInZero d))
  | None =>
      if vol (slot_box gs (k_locs k)) =? 0 then (O, AEmpty, RDone)
      else match first_fail t (length (k_locs k)) with
           | None => (length (k_locs k), ALive gs blank_content, RDone)
           | Some O => (1%nat, AEmpty, RExn ENoMem)
           | Some j => (S j, ABroken gs j, RExn ENoMem)
           end
  end.

Definition with_arr (w : aworld) (a : nat) (x : option (kind * arr)) : aworld :=
  mkA (a_tick w) (a_leak w) (put_nth (arrs w) a x).

Definition a_copy (w : aworld) (d s : nat) (R r : kind -> arr -> box) (A a : box -> list Z) : aworld * result V :=
  match afind w d, afind w s with
  | Some (k, ad), Some (_, as_) =>
      let R := R k ad in
      let r := r k as_ in
      let A := A R in
      let a := a r in
      match copy_error (k_locs k) (Nat.eqb d s) R r A a with
      | Some e => (w, RExn e)
      | None =>
          match ad, as_ with
          | ALive gd fd, ALive _ fs =>
              (with_arr w d (Some (k, ALive gd
                 (fun n q => if in_boxb (copy_box (k_locs k) R r A a) q then fs n (partner A a q) else fd n q))), RDone)
          | _, _ => (w, RDone)
          end
      end
  | _, _ => (w, RDone)
  end.

Definition tag_box (ts : list ra) (k : kind) (a : arr) : box := regions (a_shape k a) ts.

(** read_plt.  The checks in order: component, zone, sizes, name, file and position, memory for the
    buffer, length of the file, type of the data.  Then the box at the low corner of component [nn] is
    overwritten. *)
Definition a_read_plt (w : aworld) (a : nat) (of_float of_double : bytes -> option V) (fs : files) (root : string)
    (log : file_log) (zone : Z) (name : string) (nn : Z) : aworld * result V :=
  match afind w a with
  | Some (k, x) =>
      if k_N k <=? nn then (w, RExn (EN nn (k_N k - 1))) else
      match nth_error (fl_zones log) (Z.to_nat zone) with
      | None => (w, RExn EZoneTooBig)
      | Some z =>
          let ss := log_sizes k z in
          if negb (sizes_inb (a_shape k x) ss) then (w, RExn EFileSize) else
          match place_of (f_vars (fl_file log)) name with
          | None => (w, RExn EVarNotFound)
          | Some vv =>
              match nth_error (zl_data z) vv, fs (plt_path root log) with
              | Some d, Some b =>
                  if dl_pt d <? 0 then (w, RExn EOpen) else
                  let w1 := mkA (S (a_tick w)) (a_leak w) (arrs w) in
                  if fails (a_tick w) then (w1, RExn ENoMem) else
                  if Z.of_nat (length b) <? dl_pt d + product ss * width (dl_type d) then (w1, RExn ERead) else
                  if negb ((dl_type d =? 1) || (dl_type d =? 2)) then (w1, RExn ETecType) else
                  match x with
                  | ALive gs f =>
                      (with_arr w1 a (Some (k, ALive gs (fun n q =>
                         if (n =? nn) && in_boxb (corner ss) q
                         then stored of_float of_double (dl_type d) b (dl_pt d) (rank ss q) else f n q))), RDone)
                  | _ => (w1, RDone)
                  end
              | Some _, None => (w, RExn EOpen)
              | None, _ => (w, RDone)
              end
          end
      end
  | None => (w, RDone)
  end.

(** One call.  Cases that [legal] below excludes return [w, RDone]. *)
Definition astep (w : aworld) (c : op V) : aworld * result V :=
  match c with
  | New k =>
      if k_N k =? 0 then (mkA (a_tick w) (a_leak w) (arrs w ++ [None]), RExn ENZero)
      else (mkA (a_tick w) (a_leak w) (arrs w ++ [Some (k, AEmpty)]), RDone)
  | NewSized k gs =>
      if k_N k =? 0 then (mkA (a_tick w) (a_leak w) (arrs w ++ [None]), RExn ENZero)
      else let '(t, a, r) := a_alloc (a_tick w) k gs in
           match r with
           | RDone => (mkA (a_tick w + t) (a_leak w) (arrs w ++ [Some (k, a)]), r)
           | _ => (mkA (a_tick w + t) (match a with ABroken _ nb => a_leak w + nb | _ => a_leak w end)
                       (arrs w ++ [None]), r)
           end
  | Alloc a gs =>
      match afind w a with
      | Some (k, AEmpty) =>
          let '(t, x, r) := a_alloc (a_tick w) k gs in
          (mkA (a_tick w + t) (a_leak w) (put_nth (arrs w) a (Some (k, x))), r)
      | _ => (w, RExn EAllocNotEmpty)
      end
  | Realloc a gs =>
      match bad_dim 0 gs, afind w a with
      | Some d, _ => (w, RExn (EInZero d))
      | None, Some (k, AEmpty) => (w, RExn EClearEmpty)
      | None, Some (k, _) =>
          let '(t, x, r) := a_alloc (a_tick w) k gs in
          (mkA (a_tick w + t) (a_leak w) (put_nth (arrs w) a (Some (k, x))), r)
      | None, None => (w, RDone)
      end
  | Clear a =>
      match afind w a with
      | Some (k, AEmpty) => (w, RExn EClearEmpty)
      | Some (k, _) => (with_arr w a (Some (k, AEmpty)), RDone)
      | None => (w, RDone)
      end
  | Destroy a => (with_arr w a None, RDone)
  | Size a =>
      match afind w a with
      | Some (k, x) => (w, RShape (a_shape k x))
      | None => (w, RDone)
      end
  | Read a n q fl =>
      match afind w a with
      | Some (k, AEmpty) => (w, RExn ENoData)
      | Some (k, x) =>
          match access_error (k_N k) (k_locs k) (a_shape k x) n q fl, x with
          | Some e, _ => (w, RExn e)
          | None, ALive _ f => (w, RVal (f n (slot_of q fl)))
          | None, _ => (w, RDone)
          end
      | None => (w, RDone)
      end
  | Write a n q fl v =>
      match afind w a with
      | Some (k, AEmpty) => (w, RExn ENoData)
      | Some (k, x) =>
          match access_error (k_N k) (k_locs k) (a_shape k x) n q fl, x with
          | Some e, _ => (w, RExn e)
          | None, ALive gs f => (with_arr w a (Some (k, ALive gs (put_at f n (slot_of q fl) (Some v)))), RDone)
          | None, _ => (w, RDone)
          end
      | None => (w, RDone)
      end
  | DataRead a n off =>
      match afind w a with
      | Some (k, x) =>
          if k_N k <=? n then (w, RExn (EN n (k_N k - 1))) else
          match x with
          | ALive gs f =>
              let B := slot_box gs (k_locs k) in
              let a := n * vol B + off in
              (w, RVal (f (a / vol B) (point_at B (a mod vol B))))
          | _ => (w, RDone)
          end
      | None => (w, RDone)
      end
  | DataWrite a n off v =>
      match afind w a with
      | Some (k, x) =>
          if k_N k <=? n then (w, RExn (EN n (k_N k - 1))) else
          match x with
          | ALive gs f =>
              let B := slot_box gs (k_locs k) in
              let p := n * vol B + off in
              (with_arr w a (Some (k, ALive gs (put_at f (p / vol B) (point_at B (p mod vol B)) (Some v)))), RDone)
          | _ => (w, RDone)
          end
      | None => (w, RDone)
      end
  | Copy d s R r A a => a_copy w d s (fun _ _ => range_box R) (fun _ _ => range_box r) (fun _ => A) (fun _ => a)
  | CopyTag d s R r A a => a_copy w d s (tag_box R) (tag_box r) (fun _ => A) (fun _ => a)
  | CopyFl d s R r fl =>
      a_copy w d s (fun _ _ => range_box R) (fun _ _ => range_box r) (fun B => edges B fl) (fun B => edges B fl)
  | CopyTagFl d s R r fl => a_copy w d s (tag_box R) (tag_box r) (fun B => edges B fl) (fun B => edges B fl)
  | ReadPlt a of_float of_double fs root log zone name nn => a_read_plt w a of_float of_double fs root log zone name nn
  end.

(** ** What the client must respect *)

Definition kind_ok (k : kind) : Prop := 0 <= k_N k <= INT_MAX.

Definition exists_arr (w : aworld) (a : nat) (P : kind -> arr -> Prop) : Prop :=
  match afind w a with Some (k, x) => P k x | None => False end.

(** An element access: arguments of the right types; an array left broken by a
    failed allocation may not be accessed. *)
Definition legal_access (w : aworld) (a : nat) (n : Z) (q : list Z) (fl : list flag) : Prop :=
  exists_arr w a (fun k x =>
    in_uint n /\ length q = length (k_locs k) /\ length fl = length (k_locs k) /\ Forall in_int q /\
    match x with
    | ABroken gs _ => access_error (k_N k) (k_locs k) gs n q fl <> None
    | _ => True
    end).

(** [data_pt(n)[off]]: the element must be in the storage. *)
Definition legal_data (w : aworld) (a : nat) (n off : Z) : Prop :=
  exists_arr w a (fun k x =>
    in_uint n /\
    (n < k_N k ->
     match x with
     | ALive gs _ => let v := vol (slot_box gs (k_locs k)) in 0 <= n * v + off < k_N k * v
     | _ => False
     end)).

(** A copy: same class, sums within [int]; unless the copy is refused or has
    nothing to do, both arrays must hold data and the zones written and read
    must be inside them. *)
Definition legal_copy (w : aworld) (d s : nat) (R r : kind -> arr -> box) (A a : box -> list Z) : Prop :=
  exists_arr w d (fun k ad =>
    exists_arr w s (fun k' as_ =>
      k = k' /\
      let R := R k ad in let r := r k as_ in let A := A R in let a := a r in
      length R = length (k_locs k) /\ copy_fits R r A a /\
      (copy_error (k_locs k) (Nat.eqb d s) R r A a = None ->
       forall q, in_box (copy_box (k_locs k) R r A a) q ->
         match ad, as_ with
         | ALive gd _, ALive gs _ =>
             in_box (slot_box gd (k_locs k)) q /\ in_box (slot_box gs (k_locs k)) (partner A a q)
         | _, _ => False
         end))).

(** read_plt: [unsigned] arguments, a log as write_plt makes it, an array that is not broken; the
    numbers to be read have a value of the element type. *)
Definition legal_read_plt (w : aworld) (a : nat) (of_float of_double : bytes -> option V) (fs : files) (root : string)
    (log : file_log) (zone : Z) (name : string) (nn : Z) : Prop :=
  in_uint zone /\ in_uint nn /\ log_wf log /\
  exists_arr w a (fun k x =>
    (forall gs nb, x <> ABroken gs nb) /\
    forall z vv d b i,
      nth_error (fl_zones log) (Z.to_nat zone) = Some z -> place_of (f_vars (fl_file log)) name = Some vv ->
      nth_error (zl_data z) vv = Some d -> fs (plt_path root log) = Some b -> 0 <= dl_pt d ->
      dl_pt d + product (log_sizes k z) * width (dl_type d) <= Z.of_nat (length b) -> dl_type d = 1 \/ dl_type d = 2 ->
      0 <= i < product (log_sizes k z) -> stored of_float of_double (dl_type d) b (dl_pt d) i <> None).

Definition legal (w : aworld) (c : op V) : Prop :=
  match c with
  | New k => kind_ok k
  | NewSized k gs => kind_ok k /\ shape_arg k gs
  | Alloc a gs => exists_arr w a (fun k _ => shape_arg k gs)
  | Realloc a gs => exists_arr w a (fun k _ => shape_arg k gs)
  | Clear a => exists_arr w a (fun _ _ => True)
  | Destroy a => exists_arr w a (fun _ _ => True)
  | Size a => exists_arr w a (fun _ _ => True)
  | Read a n q fl => legal_access w a n q fl
  | Write a n q fl _ => legal_access w a n q fl
  | DataRead a n off => legal_data w a n off
  | DataWrite a n off _ => legal_data w a n off
  | Copy d s R r A a =>
      length R = length r /\ Forall (fun '(b, z) => in_int b /\ in_int z) (R ++ r) /\
      legal_copy w d s (fun _ _ => range_box R) (fun _ _ => range_box r) (fun _ => A) (fun _ => a)
  | CopyTag d s R r A a =>
      length R = length r /\ exists_arr w d (fun k _ => length R = length (k_locs k)) /\
      legal_copy w d s (tag_box R) (tag_box r) (fun _ => A) (fun _ => a)
  | CopyFl d s R r fl =>
      length R = length r /\ length R = length fl /\ Forall (fun '(b, z) => in_int b /\ in_int z) (R ++ r) /\
      legal_copy w d s (fun _ _ => range_box R) (fun _ _ => range_box r) (fun B => edges B fl) (fun B => edges B fl)
  | CopyTagFl d s R r fl =>
      length R = length r /\ length R = length fl /\ exists_arr w d (fun k _ => length R = length (k_locs k)) /\
      legal_copy w d s (tag_box R) (tag_box r) (fun B => edges B fl) (fun B => edges B fl)
  | ReadPlt a of_float of_double fs root log zone name nn => legal_read_plt w a of_float of_double fs root log zone name nn
  end.

Fixpoint aexec (w : aworld) (h : list (op V)) : aworld * list (result V) :=
  match h with
  | [] => (w, [])
  | c :: h' => let '(w', r) := astep w c in let '(w'', rs) := aexec w' h' in (w'', r :: rs)
  end.

Fixpoint legal_run (w : aworld) (h : list (op V)) : Prop :=
  match h with
  | [] => True
  | c :: h' => legal w c /\ legal_run (fst (astep w c)) h'
  end.

Definition a_start : aworld := mkA 0 0 [].

End Machine.
Arguments arr : clear implicits.
Arguments aworld : clear implicits.
Arguments content : clear implicits.
