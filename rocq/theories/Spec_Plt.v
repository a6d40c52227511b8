(** A reader of the Tecplot binary layout (version 112, ordered zones), written from
    the layout and not from the writing code, and what it should find in a file. *)

From Coq Require Import ZArith Ascii String List Bool.
From Verif Require Import Base M_Bytes M_TecZone M_TecFile Spec_Loop Spec_Tec.
Import ListNotations.
Open Scope list_scope.
Open Scope Z_scope.

(** ** Readers *)

Definition reader (A : Type) : Type := bytes -> option (A * bytes).
Definition found {A} (a : A) : reader A := fun b => Some (a, b).
Definition fail {A} : reader A := fun _ => None.
Definition and_then {A B} (r : reader A) (k : A -> reader B) : reader B :=
  fun b => match r b with Some (a, b') => k a b' | None => None end.
Notation "'let?' x := e 'in' k" := (and_then e (fun x => k)) (at level 200, x pattern, right associativity).

(** [n] bytes *)
Definition take (n : nat) : reader bytes :=
  fun b => if (n <=? length b)%nat then Some (firstn n b, skipn n b) else None.
(** a 32 bit integer, a 32 bit floating point number, the pattern of a 64 bit one *)
Definition get_int : reader Z := let? b := take 4 in found (signed 32 (unle b)).
Definition get_mark : reader num := let? b := take 4 in found (num32 (unle b)).
Definition get_dbl : reader Z := let? b := take 8 in found (unle b).
(** an integer that has to be [k] *)
Definition expect (k : Z) : reader unit := let? x := get_int in if x =? k then found tt else fail.

(** a text: one integer for each character, ended by 0 *)
Fixpoint get_chars (fuel : nat) : reader string :=
  match fuel with
  | O => fail
  | S k =>
      let? c := get_int in
      if c =? 0 then found EmptyString
      else let? s := get_chars k in found (String (z2b (c mod 256)) s)
  end.
Definition get_text : reader string := fun b => get_chars (length b) b.

(** [n] times the same *)
Fixpoint times {A} (n : nat) (r : reader A) : reader (list A) :=
  match n with
  | O => found []
  | S k => let? a := r in let? l := times k r in found (a :: l)
  end.

(** ** The layout *)

(** the markers *)
Definition is_mark (k : Z) (x : num) : bool := match x with Fin v => v =? k * 2 ^ 149 | _ => false end.

(** name, format 0 (text), value *)
Definition get_aux : reader (string * string) :=
  let? n := get_text in let? _ := expect 0 in let? v := get_text in found (n, v).
(** the auxiliary pairs of a zone: 1 and a pair, ended by 0 *)
Fixpoint get_auxs (fuel : nat) : reader aux :=
  match fuel with
  | O => fail
  | S k =>
      let? c := get_int in
      if c =? 0 then found []
      else if c =? 1 then let? p := get_aux in let? l := get_auxs k in found (p :: l)
      else fail
  end.

(** zone header after the marker 299: name, parent zone (none), strand, time, unused, zone type
    (ordered), variable location (all at nodes), no face neighbours, sizes, auxiliary pairs *)
Record head := mkHead { h_name : string; h_strand : Z; h_time : Z; h_size : list Z; h_aux : aux }.
Definition get_head : reader head :=
  let? name := get_text in
  let? _ := expect (-1) in
  let? strand := get_int in
  let? time := get_dbl in
  let? _ := expect (-1) in
  let? _ := expect 0 in
  let? _ := expect 0 in
  let? _ := expect 0 in
  let? _ := expect 0 in
  let? size := times 3 get_int in
  let? a := (fun b => get_auxs (length b) b) in
  found (mkHead name strand time size a).

(** header sections up to the marker 357: zones (299) and auxiliary pairs of the file (799) *)
Fixpoint get_sections (fuel : nat) : reader (list head * aux) :=
  match fuel with
  | O => fail
  | S k =>
      let? m := get_mark in
      if is_mark 357 m then found ([], [])
      else if is_mark 299 m then
        let? h := get_head in let? (hs, a) := get_sections k in found (h :: hs, a)
      else if is_mark 799 m then
        let? p := get_aux in let? (hs, a) := get_sections k in found (hs, p :: a)
      else fail
  end.

(** data section of a zone: marker 299, types of the variables, no passive variables, no
    sharing (0 and -1), minimum and maximum of each variable, the blocks *)
Record pvar := mkPvar { pv_type : Z; pv_min : Z; pv_max : Z; pv_data : bytes }.
Fixpoint get_blocks (n : Z) (types : list Z) (mm : list (Z * Z)) : reader (list pvar) :=
  match types, mm with
  | t :: types', (mn, mx) :: mm' =>
      let? b := take (Z.to_nat (n * width t)) in
      let? l := get_blocks n types' mm' in
      found (mkPvar t mn mx b :: l)
  | _, _ => found []
  end.
Definition product (l : list Z) : Z := fold_right Z.mul 1 l.
Definition get_data (nvar : nat) (h : head) : reader (list pvar) :=
  let? m := get_mark in
  if is_mark 299 m then
    let? types := times nvar get_int in
    let? _ := expect 0 in
    let? _ := expect 0 in
    let? _ := expect (-1) in
    let? mm := times nvar (let? a := get_dbl in let? b := get_dbl in found (a, b)) in
    get_blocks (product (h_size h)) types mm
  else fail.
Record pzone := mkPzone { pz_head : head; pz_vars : list pvar }.
Fixpoint get_zones (nvar : nat) (hs : list head) : reader (list pzone) :=
  match hs with
  | [] => found []
  | h :: hs' =>
      let? v := get_data nvar h in
      let? l := get_zones nvar hs' in
      found (mkPzone h v :: l)
  end.

(** the whole file: "#!TDV112", 1 (byte order), file type, title, variables, sections, data of the
    zones, end *)
Record plt := mkPlt { p_type : Z; p_title : string; p_vars : list string; p_aux : aux; p_zones : list pzone }.
Definition get_file : reader plt :=
  let? m := take 8 in
  if list_eq_dec ascii_dec m (list_ascii_of_string "#!TDV112") then
    let? _ := expect 1 in
    let? type := get_int in
    let? title := get_text in
    let? nvar := get_int in
    let? vars := times (Z.to_nat nvar) get_text in
    let? (hs, a) := (fun b => get_sections (length b) b) in
    let? zs := get_zones (Z.to_nat nvar) hs in
    found (mkPlt type title vars a zs)
  else fail.
Definition parse_plt (b : bytes) : option plt :=
  match get_file b with
  | Some (p, []) => Some p
  | _ => None
  end.

(** ** What should be found *)

(** A variable: type, sampled block and, if it has no NaN, its extrema. *)
Definition no_nan (type : Z) (blk : bytes) : Prop :=
  forall i, 0 <= i < Z.of_nat (length blk) / width type -> value type blk i <> NaN.
Definition shows_var (z : zone) (d : tdata) (v : pvar) : Prop :=
  exists mem, d_mem d = Some mem /\
    pv_type v = d_type d /\ pv_data v = block_of z (width (d_type d)) mem /\
    (no_nan (d_type d) (pv_data v) -> extrema (d_type d) (product (samples_of z)) (pv_data v) (pv_min v) (pv_max v)).
Definition shows_zone (z : zone) (p : pzone) : Prop :=
  pz_head p = mkHead (z_name z) (z_strand z) (z_time z) (samples_of z) (z_aux z) /\
  Forall2 (shows_var z) (z_data z) (pz_vars p).
Definition shows (f : tfile) (p : plt) : Prop :=
  p_type p = f_type f /\ p_title p = f_title f /\ p_vars p = f_vars f /\ p_aux p = f_aux f /\
  Forall2 shows_zone (f_zones f) (p_zones p).

(** ** Conditions *)

(** The data of a zone was made by the constructors of TEC_DATA, and the arrays
    are as long as the zone says. *)
Definition made (d : tdata) : Prop := d = data_null \/ exists t m, data_of t m = Ok d.
Definition data_wf (z : zone) (d : tdata) : Prop :=
  made d /\ forall mem, d_mem d = Some mem -> org_count z * d_size d <= Z.of_nat (length mem).
(** The numbers of a zone are [int] and no index product overflows. *)
Definition zone_wf (z : zone) : Prop :=
  all_dirs dir_ints z /\ all_dirs (fun max skip _ e => max - e + skip - 1 <= INT_MAX) z /\
  org_count z <= INT_MAX /\ in_int (z_strand z) /\ 0 <= z_time z < 2 ^ 64 /\
  Forall (data_wf z) (z_data z).
Definition file_wf (f : tfile) : Prop :=
  in_int (f_type f) /\ Z.of_nat (length (f_vars f)) <= INT_MAX /\
  Z.of_nat (length (f_zones f)) <= INT_MAX /\ Forall zone_wf (f_zones f).

(** No text contains a NUL character. *)
Definition no_nul (s : string) : Prop := ~ In (ascii_of_nat 0) (list_ascii_of_string s).
Definition texts_of_zone (z : zone) : list string := z_name z :: flat_map (fun p => [fst p; snd p]) (z_aux z).
Definition texts_of (f : tfile) : list string :=
  f_title f :: f_vars f ++ flat_map (fun p => [fst p; snd p]) (f_aux f) ++ flat_map texts_of_zone (f_zones f).

(** A description the library refuses. *)
Definition refused_zone (f : tfile) (z : zone) : Prop :=
  some_dir dir_bad z \/ z_data z = [] \/ length (z_data z) <> length (f_vars f) \/
  exists d, In d (z_data z) /\ d_mem d = None.
Definition refused (f : tfile) : Prop :=
  f_vars f = [] \/ f_zones f = [] \/ exists z, In z (f_zones f) /\ refused_zone f z.

(** A zone that is taken as a whole needs no buffers. *)
Definition whole (z : zone) : Prop := all_dirs (fun _ s b e => s = 1 /\ b = 0 /\ e = 0) z.
(** The buffer of variable [k] of zone [i] is needed and cannot be allocated. *)
Definition starved (e : env) (f : tfile) (i k : nat) : Prop :=
  exists z, nth_error (f_zones f) i = Some z /\ ~ whole z /\ (k < length (z_data z))%nat /\ e_oom e i k = true.
(** It is the first one. *)
Definition first_starved (e : env) (f : tfile) (i k : nat) : Prop :=
  starved e f i k /\
  forall i' k', starved e f i' k' -> (i < i')%nat \/ (i = i' /\ (k <= k')%nat).

(** ** Size of the file *)

Definition sum (l : list Z) : Z := fold_right Z.add 0 l.
Definition text_size (s : string) : Z := 4 * (Z.of_nat (String.length s) + 1).
Definition pair_size (p : string * string) : Z := text_size (fst p) + 4 + text_size (snd p).
Definition head_size (z : zone) : Z :=
  4 + text_size (z_name z) + 48 + sum (map (fun p => 4 + pair_size p) (z_aux z)) + 4.
Definition data_size (z : zone) : Z :=
  16 + sum (map (fun d => 20 + product (samples_of z) * width (d_type d)) (z_data z)).
Definition plt_size (f : tfile) : Z :=
  16 + text_size (f_title f) + 4 + sum (map text_size (f_vars f)) + sum (map head_size (f_zones f))
  + sum (map (fun p => 4 + pair_size p) (f_aux f)) + 4 + sum (map data_size (f_zones f)).

(** ** The log *)

(** The bytes of [blk] are at position [pos]. *)
Definition lies_at (b : bytes) (pos : Z) (blk : bytes) : Prop :=
  0 <= pos /\ pos + Z.of_nat (length blk) <= Z.of_nat (length b) /\
  firstn (length blk) (skipn (Z.to_nat pos) b) = blk.

(** The log entries of a variable and of a zone, for a file [b]. *)
Definition logs_var (b : bytes) (v : pvar) (g : data_log) : Prop :=
  dl_type g = pv_type v /\ dl_size g = width (pv_type v) /\ dl_min g = pv_min v /\ dl_max g = pv_max v /\
  lies_at b (dl_pt g) (pv_data v).
Definition logs_zone (b : bytes) (p : pzone) (g : zone_log) : Prop :=
  list3 (r_max (zl_real g)) = h_size (pz_head p) /\ Forall2 (logs_var b) (pz_vars p) (zl_data g).

(** ** Limits of the text buffers *)

(** Length of a text up to its first NUL. *)
Definition len (s : string) : Z := Z.of_nat (String.length (c_str s)).
Definition digits (n : Z) : Z := Z.of_nat (String.length (fmt_i n)).
Definition short_pair (p : string * string) : Prop :=
  len (fst p) + len (snd p) + 9 < 200 /\ 2 * len (fst p) + len (snd p) + 7 < 200.
Definition short_zone (i : nat) (z : zone) : Prop :=
  len (z_name z) + 22 < 200 /\ Forall short_pair (z_aux z) /\
  (Z.testbit (z_echo z) 0 || Z.testbit (z_echo z) 1 = true ->
   len (z_name z) + digits (Z.of_nat i + 1) + 23 < 100).
Definition short (f : tfile) : Prop :=
  len (f_name f ++ ".plt") + 22 < 200 /\ len (f_path f) + 22 < 200 /\ len (f_title f) + 16 < 200 /\
  (forall k v, nth_error (f_vars f) k = Some v -> len v + digits (Z.of_nat k) + 9 < 200) /\
  Forall short_pair (f_aux f) /\
  (forall i z, nth_error (f_zones f) i = Some z -> short_zone i z).

(** The surroundings: the text of the time of day fits, the time used is below 2^64 seconds. *)
Definition calm (e : env) : Prop :=
  len (e_begin e) + 14 < 200 /\ (forall v, num64 (e_using e) = Fin v -> Z.abs v < 2 ^ 64 * 2 ^ 1074).

(** ** Printed texts *)

(** Lines printed with [depth] tabulators before and a line end after each; a line ends at its
    first NUL. *)
Fixpoint tabs (depth : nat) : string := match depth with O => ""%string | S d => (TAB ++ tabs d)%string end.
Fixpoint lines (depth : nat) (l : list string) : string :=
  match l with
  | [] => ""%string
  | s :: l' => (tabs depth ++ c_str s ++ NL ++ lines depth l')%string
  end.

(** A text of the file log [t] is made of own lines [c0], then for each zone a line reserved for
    it and own lines again; printing puts the zone's text [zt] in the reserved place. *)
Fixpoint reserve (cs : list (list string)) : list string :=
  match cs with
  | [] => []
  | c :: cs' => "#ZONE#"%string :: c ++ reserve cs'
  end.
Fixpoint weave (depth zdepth : nat) (zt : zone_log -> list string) (zs : list zone_log) (cs : list (list string)) : string :=
  match zs, cs with
  | z :: zs', c :: cs' => (lines zdepth (zt z) ++ lines depth c ++ weave depth zdepth zt zs' cs')%string
  | _, _ => ""%string
  end.
Definition printed (depth zdepth : nat) (zt : zone_log -> list string) (zs : list zone_log) (n : nat)
    (t : list string) (r : res string) : Prop :=
  exists c0 cs, t = c0 ++ reserve cs /\ length cs = n /\ (forall c, In c (c0 :: cs) -> ~ In "#ZONE#"%string c) /\
    r = Ok (lines depth c0 ++ weave depth zdepth zt zs cs)%string.
