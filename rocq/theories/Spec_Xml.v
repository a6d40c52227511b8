(** Specification vocabulary for logs read from XML. *)

From Coq Require Import ZArith Ascii String List Bool.
From Verif Require Import Base M_Bytes M_TecZone M_TecFile M_Read Spec_Tec Spec_Plt Spec_Aux.
Import ListNotations.
Open Scope list_scope.
Open Scope Z_scope.

(** ** Numbers *)

(** [y] is near [x] (bit patterns of [double]): the same special value, or a relative error of at
    most one in a million (and the smallest positive number, the unit of [Fin]). *)
Definition near (x y : Z) : Prop :=
  match num64 x with
  | Fin v => exists w, num64 y = Fin w /\ 10 ^ 6 * Z.abs (w - v) <= Z.abs v + 10 ^ 6
  | s => num64 y = s
  end.

(** An absolute error of 10^-p (and a relative one of 10^-15); [2 ^ 1074] units are 1. *)
Definition near_abs (p : Z) (x y : Z) : Prop :=
  match num64 x with
  | Fin v => exists w, num64 y = Fin w /\ 10 ^ 15 * 10 ^ p * Z.abs (w - v) <= 10 ^ 15 * 2 ^ 1074 + 10 ^ p * Z.abs v
  | s => num64 y = s
  end.

(** ** Texts that XML leaves alone *)

Definition chars (P : Z -> Prop) (s : string) : Prop := forall c, In c (list_ascii_of_string s) -> P (b2z c).

(** Not NUL, carriage return, [&] or [<]. *)
Definition plain (n : Z) : Prop := n <> 0 /\ n <> 13 /\ n <> 38 /\ n <> 60.
(** Space, tabulator, line feed and so on. *)
Definition space (n : Z) : Prop := n = 32 \/ 9 <= n <= 13.
Definition plain_text (s : string) : Prop := chars plain s /\ ~ chars space s.
(** The same without double quotes. *)
Definition plain_value (s : string) : Prop := chars (fun n => plain n /\ n <> 34) s.

(** Names of elements: a letter, [:], [_] or a byte above 127, then also digits, [.] and [-]. *)
Definition name1 (n : Z) : Prop := 65 <= n <= 90 \/ 97 <= n <= 122 \/ n = 58 \/ n = 95 \/ 128 <= n.
Definition name2 (n : Z) : Prop := name1 n \/ 48 <= n <= 57 \/ n = 46 \/ n = 45.
Definition xml_name (s : string) : Prop :=
  exists c r, s = String c r /\ name1 (b2z c) /\ chars name2 r.

(** Auxiliary data: names in the order of std::map. *)
Inductive in_order : list (string * string) -> Prop :=
| in_order_nil : in_order []
| in_order_cons p l : Forall (fun q => before (fst p) (fst q)) l -> in_order l -> in_order (p :: l).
Definition xml_aux (a : aux) : Prop := in_order a /\ Forall (fun p => xml_name (fst p) /\ chars plain (snd p)) a.

Definition xml_zone (z : zone) : Prop := plain_value (z_name z) /\ xml_aux (z_aux z).
Definition xml_plain (f : tfile) : Prop :=
  plain_value (f_name f) /\ chars plain (f_path f) /\ chars plain (f_title f) /\
  Forall xml_name (f_vars f) /\ xml_aux (f_aux f) /\ Forall xml_zone (f_zones f).
(** The texts that are contents of elements. *)
Definition contents (f : tfile) : list string :=
  f_path f :: f_title f :: map snd (f_aux f) ++ flat_map (fun z => z_name z :: map snd (z_aux z)) (f_zones f).
Definition xml_safe (f : tfile) : Prop := xml_plain f /\ Forall (fun s => ~ chars space s) (contents f).

(** ** Logs that say the same *)

Definition same_data (g g' : data_log) : Prop :=
  dl_type g' = dl_type g /\ dl_size g' = dl_size g /\ dl_pt g' = dl_pt g /\
  near (dl_min g) (dl_min g') /\ near (dl_max g) (dl_max g').
Definition same_zone (g g' : zone_log) : Prop :=
  let z := zl_zone g in let z' := zl_zone g' in
  z_name z' = z_name z /\ z_strand z' = z_strand z /\ (z_strand z <> -1 -> near (z_time z) (z_time z')) /\
  z_max z' = z_max z /\ z_skip z' = z_skip z /\ z_begin z' = z_begin z /\ z_end z' = z_end z /\ z_aux z' = z_aux z /\
  r_dim (zl_real g') = r_dim (zl_real g) /\ r_rdim (zl_real g') = r_rdim (zl_real g) /\
  r_max (zl_real g') = r_max (zl_real g) /\ Forall2 same_data (zl_data g) (zl_data g').
Definition same_log (g g' : file_log) : Prop :=
  let f := fl_file g in let f' := fl_file g' in
  f_path f' = f_path f /\ f_name f' = f_name f /\ f_title f' = f_title f /\ f_vars f' = f_vars f /\
  f_type f' = f_type f /\ f_aux f' = f_aux f /\
  fl_begin g' = fl_begin g /\ near_abs 5 (fl_using g) (fl_using g') /\
  Forall2 same_zone (fl_zones g) (fl_zones g').
