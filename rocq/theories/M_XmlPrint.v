(** Writing XML: the printer of scr/tinyxml2 and XMLDocument::SaveFile.

    Writing to the open file never fails.  The names on the printer's stack are those of the open elements, so
    here CloseElement is given the name of its element.  The document processes entities (the default).
    Texts longer than INT_MAX, which are cut, are not modelled. *)

From Coq Require Import ZArith Ascii String List Bool.
From Verif Require Import Base M_Bytes M_Scan M_Xml.
Import ListNotations.
Open Scope string_scope.
Open Scope Z_scope.

(** The members of XMLPrinter that change, tinyxml2.h:2240-2250, and their first values, tinyxml2.cpp:2365-2374. *)
Record printer := mkPrinter { p_opened : bool; p_first : bool; p_depth : Z; p_text : Z }.
Definition new_printer : printer := mkPrinter false true 0 (-1).

(** XMLPrinter::PrintSpace, tinyxml2.cpp:2441-2446 *)
Definition print_space (depth : Z) : string := String.concat "" (repeat "    " (Z.to_nat depth)).

(** XMLPrinter::PrintString, tinyxml2.cpp:2449-2499, with the flags set in the constructor, :2376-2390 *)
Definition flagged (restricted : bool) (c : ascii) : bool :=
  let n := b2z c in
  if restricted then (n =? 38) || (n =? 60) || (n =? 62) else existsb (fun e => b2z (snd e) =? n) entities.
Definition escape (c : ascii) : string :=
  match List.find (fun e => b2z (snd e) =? b2z c) entities with
  | Some e => "&" ++ fst e
  | None => ""
  end.
Fixpoint print_string (restricted : bool) (s : string) : string :=
  match s with
  | "" => ""
  | String c s' => (if flagged restricted c then escape c else String c "") ++ print_string restricted s'
  end.

(** XMLPrinter::SealElementIfJustOpened, tinyxml2.cpp:2614-2621 *)
Definition seal (st : printer) : string * printer :=
  if p_opened st then (">", mkPrinter false (p_first st) (p_depth st) (p_text st)) else ("", st).

(** XMLPrinter::OpenElement, tinyxml2.cpp:2514-2532 *)
Definition open_element (compact : bool) (name : string) (st : printer) : string * printer :=
  let '(s, st) := seal st in
  (s ++ (if (p_text st <? 0) && negb (p_first st) && negb compact then NL else "")
     ++ (if compact then "" else print_space (p_depth st)) ++ "<" ++ name,
   mkPrinter true false (p_depth st + 1) (p_text st)).

(** XMLPrinter::PushAttribute, tinyxml2.cpp:2535-2543 *)
Definition push_attribute (a : string * string) : string :=
  " " ++ fst a ++ "=""" ++ print_string false (snd a) ++ """".
Fixpoint push_attributes (l : list (string * string)) : string :=
  match l with
  | [] => ""
  | a :: l' => push_attribute a ++ push_attributes l'
  end.

(** XMLPrinter::CloseElement, tinyxml2.cpp:2586-2611 *)
Definition close_element (compact : bool) (name : string) (st : printer) : string * printer :=
  let d := p_depth st - 1 in
  ((if p_opened st then "/>"
    else (if (p_text st <? 0) && negb compact then NL ++ print_space d else "") ++ "</" ++ name ++ ">")
     ++ (if (d =? 0) && negb compact then NL else ""),
   mkPrinter false (p_first st) d (if p_text st =? d then -1 else p_text st)).

(** XMLPrinter::PushText, tinyxml2.cpp:2624-2637 *)
Definition push_text (cdata : bool) (text : string) (st : printer) : string * printer :=
  let '(s, st) := seal (mkPrinter (p_opened st) (p_first st) (p_depth st) (p_depth st - 1)) in
  (s ++ (if cdata then "<![CDATA[" ++ text ++ "]]>" else print_string true text), st).

(** XMLPrinter::PushComment, PushDeclaration and PushUnknown, tinyxml2.cpp:2686-2728, which differ in the marks [text]
    is put in. *)
Definition push_mark (compact : bool) (text : string) (st : printer) : string * printer :=
  let '(s, st) := seal st in
  (s ++ (if (p_text st <? 0) && negb (p_first st) && negb compact then NL ++ print_space (p_depth st) else "") ++ text,
   mkPrinter (p_opened st) false (p_depth st) (p_text st)).

(** The loops over the children, tinyxml2.cpp:730-734 and 1956-1960 *)
Definition in_turn {A} (visit : A -> printer -> string * printer) :=
  fix go (l : list A) (st : printer) : string * printer :=
    match l with
    | [] => ("", st)
    | a :: l' => let '(s, st) := visit a st in let '(s', st) := go l' st in (s ++ s', st)
    end.

(** The functions Accept of the nodes, tinyxml2.cpp:1179-1183, 1227-1231, 1277-1281, 1324-1328 and 1952-1963, with the
    functions Visit, VisitEnter and VisitExit of the printer, :2741-2789. *)
Fixpoint visit (compact : bool) (n : node) (st : printer) : string * printer :=
  match n with
  | NElem name attrs kids =>
      let '(s1, st) := open_element compact name st in
      let '(s2, st) := in_turn (visit compact) kids st in
      let '(s3, st) := close_element compact name st in
      (s1 ++ push_attributes attrs ++ s2 ++ s3, st)
  | NText cdata s => push_text cdata s st
  | NComment s => push_mark compact ("<!--" ++ s ++ "-->") st
  | NDecl s => push_mark compact ("<?" ++ s ++ "?>") st
  | NUnknown s => push_mark compact ("<!" ++ s ++ ">") st
  end.

(** XMLDocument::HasBOM, tinyxml2.h:1717-1719, of a document loaded from this text: XMLUtil::ReadBOM, tinyxml2.cpp:385-400, in
    Parse, :2349-2363 *)
Definition has_bom (text : string) : bool := at_ bom (skip_ws (c_str text)).

(** XMLDocument::SaveFile(file, compact), tinyxml2.cpp:2232-2255, with XMLDocument::Accept, :726-737, and
    XMLPrinter::VisitEnter( const XMLDocument& ), :2731-2738: what the file holds then.  [write_bom]: the document was
    loaded from a file with a byte order mark. *)
Definition save (compact write_bom : bool) (l : list node) : string :=
  (if write_bom then bom else "") ++ fst (in_turn (visit compact) l new_printer).
