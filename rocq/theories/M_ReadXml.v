(** Reading the log of a .plt file from its XML text: TEC_FILE_LOG::read_xml, TEC_ZONE_LOG::read_xml
    and liton_sp::xml::load_xml (compiled with OT_TINYXML and SP_TINYXML). *)

From Coq Require Import ZArith Ascii String List Bool.
From Verif Require Import Base M_Bytes M_TecZone M_TecFile M_Scan M_Xml.
Import ListNotations.
Open Scope list_scope.
Open Scope string_scope.
Open Scope Z_scope.

(** ** The file *)

(** write_xml(depth), ordered_tec.cpp:124-135 and 343-354: what the file contains if it can be opened. *)
Definition xml_line : string := "<?xml version=" ++ Q ++ "1.0" ++ Q ++ " encoding=" ++ Q ++ "UTF-8" ++ Q ++ "?>".
Definition xml_path (l : file_log) : string := c_str (f_path (fl_file l) ++ "/" ++ f_name (fl_file l) ++ ".xml").
Definition xml_file (l : file_log) (depth : nat) : res string :=
  let* t := write_xml l depth in Ok (xml_line ++ NL ++ t).
Definition zone_xml_file (l : zone_log) (depth : nat) : string := xml_line ++ NL ++ zone_text_out depth (zl_xml l).

(** The numbers of errors printed by [tran << err_code]. *)
Definition XML_ERROR_FILE_NOT_FOUND := 3.

(** lion_snippets.hpp:157-181.  [fs]: the files that can be read, by path.  A file that
    cannot be opened is one that does not exist. *)
Definition load_xml (fs : string -> option bytes) (file root : string) : res node :=
  match fs (c_str file) with
  | None => Err (ETec ("case file " ++ file ++ " not found"))
  | Some b =>
      match load_text (string_of_list_ascii b) with
      | inr e => Err (ETec ("error when loading file " ++ file ++ ": error ID " ++ fmt_i e))
      | inl kids =>
          match child (NElem "" [] kids) (c_str root) with
          | None => Err (ETec ("node " ++ Q ++ root ++ Q ++ " not found in " ++ file))
          | Some n => Ok n
          end
      end
  end.

(** ** Steps of read_xml *)

(** Calling a member function of the element returned by FirstChildElement(name); the null pointer is undefined. *)
Definition need (n : node) (name : string) : res node :=
  match child n name with Some c => Ok c | None => UB end.
(** A [std::string] assigned from a [const char *]; the null pointer is undefined. *)
Definition str (o : option string) : res string :=
  match o with Some s => Ok s | None => UB end.
(** [FirstChildElement(name)->GetText()] assigned to a [std::string] *)
Definition text_of (n : node) (name : string) : res string := let* c := need n name in str (get_text c).
(** A variable that has no value before; reading it unassigned is undefined. *)
Definition assigned {A} (o : option A) : res A := match o with Some x => Ok x | None => UB end.
(** What a variable is read as after [Query...(&x)] has given it [o] or nothing: [d] is its value before; [None]: it
    has none. *)
Definition keep {A} (d o : option A) : res A := match o with Some x => Ok x | None => assigned d end.
(** [FirstChildElement(name)->QueryIntText(&x)] for a variable [x] with value [d], and the same for a [double]. *)
Definition int_of (n : node) (name : string) (d : option Z) : res Z :=
  let* c := need n name in let* o := q_int_text c in keep d o.
Definition double_of (n : node) (name : string) (d : option Z) : res Z :=
  let* c := need n name in keep d (q_double_text c).

(** The loops over the elements of Org_Max, Skip, Begin, End and Real_Max, ordered_tec.cpp:378-407; behind the third element of
    the array is undefined. *)
Fixpoint ints_of (l : list node) (d : list (option Z)) : res (list Z) :=
  match l, d with
  | [], _ => map_res assigned d
  | _ :: _, [] => UB
  | c :: l', x :: d' => let* o := q_int_text c in let* v := keep x o in let* r := ints_of l' d' in Ok (v :: r)
  end.
Definition v3_of (u : option Z) (n : node) (name : string) : res v3 :=
  let* c := need n name in
  let* l := ints_of (elems c) [u; u; u] in
  match l with [a; b; c] => Ok (mk3 a b c) | _ => UB end.

(** [Auxiliary[name] = value] *)
Fixpoint aux_assign (a : aux) (k v : string) : aux :=
  match a with
  | [] => [(k, v)]
  | (k', v') :: a' =>
      if str_lt k k' then (k, v) :: a
      else if str_lt k' k then (k', v') :: aux_assign a' k v
      else (k', v) :: a'
  end.
(** The loop over the elements of Auxiliary, ordered_tec.cpp:173-181 and 408-416 *)
Fixpoint aux_of (l : list node) (a : aux) : res aux :=
  match l with
  | [] => Ok a
  | c :: l' => let* v := str (get_text c) in aux_of l' (aux_assign a (name_of c) v)
  end.
Definition read_aux (n : node) : res aux :=
  match child n "Auxiliary" with Some c => aux_of (elems c) [] | None => Ok [] end.

(** The loop over the elements of Datas, ordered_tec.cpp:418-433; TEC_DATA_LOG() leaves [min] and [max] unset.  A [type]
    that is none of the enumerators stays what it is. *)
Definition data_of (u : option Z) (c : node) : res data_log :=
  let* o := q_int_attr c "type" in
  let* type := assigned o in
  let* o := q_unsigned_attr c "size_i" in
  let* size := assigned o in
  let* pt := str (attribute (attrs c) "file_pt") in
  let* mn := keep u (q_double_attr c "min") in
  let* mx := keep u (q_double_attr c "max") in
  Ok (mkDL type size (strtol pt) mn mx).

(** TEC_ZONE_LOG::read_xml, ordered_tec.cpp:368-434, for a new TEC_ZONE_LOG(), whose numbers are unset (and [noskip],
    [noexc], here [false]).  Only StrandId is used before read_xml ends.  [u]: what numbers not assigned to are read as
    later; copying them with the rest of the log is not taken for reading. *)
Definition read_zone_with (u : option Z) (n : node) : res zone_log :=
  let* name := text_of n "ZoneName" in
  let* c := need n "StrandId" in
  let* o := q_int_text c in
  let* strand := assigned o in
  let* time := (if strand =? -1 then Ok 0 else double_of n "SolutionTime" u) in
  let* dim := int_of n "Org_Dim" u in
  let* rdim := int_of n "Real_Dim" u in
  let* max := v3_of u n "Org_Max" in
  let* skip := v3_of u n "Skip" in
  let* begin := v3_of u n "Begin" in
  let* end_ := v3_of u n "End" in
  let* rmax := v3_of u n "Real_Max" in
  let* a := read_aux n in
  let* ds := need n "Datas" in
  let* data := map_res (data_of u) (elems ds) in
  Ok (mkZL (mkZone name strand time max skip begin end_ a [] 0) (mkReal dim rdim rmax false false) data 0 [] [] []).

(** The zone log alone: numbers not assigned to are shown as 0. *)
Definition read_zone : node -> res zone_log := read_zone_with (Some 0).

(** TEC_FILE_LOG::read_xml, ordered_tec.cpp:158-192, for a new TEC_FILE_LOG(), ordered_tec.cpp:52-57.  gen_xml and
    gen_json print all numbers of the zones, so none may be unassigned. *)
Definition read_xml (n : node) : res file_log :=
  let* name := str (attribute (attrs n) "FileName") in
  let* path := text_of n "FilePath" in
  let* begin := text_of n "Time" in
  let* ut := double_of n "UsingTime" (Some 0) in
  let* title := text_of n "Title" in
  let* type := int_of n "FileType" (Some (-1)) in
  let* vs := need n "Variables" in
  let vars := map name_of (elems vs) in
  let* a := read_aux n in
  let* zs := need n "Zones" in
  let* zones := map_res (read_zone_with None) (elems zs) in
  gen_texts (mkFL (mkFile path name title vars type a [] 0) zones begin "" ut 0 "" [] [] []).

(** The usual way to get a log: [log.read_xml(load_xml(doc, file, "File"))]. *)
Definition read_log (fs : string -> option bytes) (file : string) : res file_log :=
  let* n := load_xml fs file "File" in read_xml n.
