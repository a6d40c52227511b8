(** Settings kept in an XML file: liton_sp::xml of liton_cpp_snippets/lion_snippets.hpp (compiled with SP_TINYXML) and
    the member functions of TinyXML2 its clients read a node with. *)

From Coq Require Import ZArith Ascii String List Bool.
From Verif Require Import Base M_Bytes M_TecZone M_TecFile M_Scan M_Xml M_ReadXml.
Import ListNotations.
Open Scope list_scope.
Open Scope string_scope.
Open Scope Z_scope.

(** lion_snippets.hpp:183-189, [check_xmlnode].  The pointer is that of an element; the null pointer cannot come from
    load_xml or get_xmlnode. *)
Definition check_xmlnode (n : node) (name : string) : res unit :=
  match child n (c_str name) with
  | None => Err (ETec ("node " ++ Q ++ name ++ Q ++ " not found in node " ++ Q ++ name_of n ++ Q))
  | Some _ => Ok tt
  end.
(** lion_snippets.hpp:191-195, [get_xmlnode]. *)
Definition get_xmlnode (n : node) (name : string) : res node :=
  let* _ := check_xmlnode n name in
  match child n (c_str name) with Some c => Ok c | None => UB end.

(** The client [get_xmlnode(...get_xmlnode(load_xml(file, root), name1)..., namek)]; load_xml, lion_snippets.hpp:157-181,
    is in M_ReadXml.v. *)
Fixpoint walk (n : node) (path : list string) : res node :=
  match path with
  | [] => Ok n
  | name :: path' => let* c := get_xmlnode n name in walk c path'
  end.
Definition lookup (fs : string -> option bytes) (file root : string) (path : list string) : res node :=
  let* r := load_xml fs file root in walk r path.

(** What the client does with the node: GetText, and [x = d; node->QueryIntText(&x)] where the error code is not looked
    at (tinyxml2.cpp:1566-1572, 1634-1645), the same for [double] (:1686-1697), and for the attribute [name]
    (tinyxml2.h:1313-1356). *)
Definition setting {A} (d : A) (o : option A) : A := match o with Some x => x | None => d end.
Definition text_setting (fs : string -> option bytes) (file root : string) (path : list string) : res (option string) :=
  let* n := lookup fs file root path in Ok (get_text n).
Definition int_setting (fs : string -> option bytes) (file root : string) (path : list string) (d : Z) : res Z :=
  let* n := lookup fs file root path in let* o := q_int_text n in Ok (setting d o).
Definition double_setting (fs : string -> option bytes) (file root : string) (path : list string) (d : Z) : res Z :=
  let* n := lookup fs file root path in Ok (setting d (q_double_text n)).
Definition int_attr_setting (fs : string -> option bytes) (file root : string) (path : list string) (name : string) (d : Z) : res Z :=
  let* n := lookup fs file root path in let* o := q_int_attr n (c_str name) in Ok (setting d o).
