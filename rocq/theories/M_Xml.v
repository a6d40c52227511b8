(** Reading XML: the parser of scr/tinyxml2 and the functions of its document tree that
    read_xml of scr/liton_ordered_tec calls.

    tinyxml2 parses in place: a value is a pair of pointers into the text, and a terminating NUL is written and
    entities are replaced when the value is asked for.  While parsing, only names are asked for, whose
    terminator falls on a character already consumed.  So here a position in the text is the rest of
    the text, and values are taken out of it when they are found.  The end of the text is
    its terminating NUL.  Line numbers, memory pools and assertions (switched off in release
    builds) are left out. *)

From Coq Require Import ZArith Ascii String List Bool.
From Verif Require Import Base M_Bytes M_Scan.
Import ListNotations.
Open Scope string_scope.
Open Scope Z_scope.

(** The part of the text from position [n] on. *)
Fixpoint drop (n : nat) (s : string) : string :=
  match n, s with
  | O, _ => s
  | S n', String _ s' => drop n' s'
  | S _, "" => ""
  end.
Definition tail (s : string) : string := drop 1 s.

(** [strncmp(p, q, strlen(q)) == 0] *)
Definition at_ (q p : string) : bool := String.prefix q p.

(** XMLUtil::IsNameStartChar and IsNameChar, tinyxml2.h:565-581 *)
Definition name_start (c : ascii) : bool :=
  let n := b2z c in
  (128 <=? n) || ((65 <=? n) && (n <=? 90)) || ((97 <=? n) && (n <=? 122)) || (n =? 58) || (n =? 95).
Definition name_char (c : ascii) : bool :=
  name_start c || is_digit c || (b2z c =? 46) || (b2z c =? 45).

(** StrPair::ParseName, tinyxml2.cpp:218-236: the name and what follows. *)
Fixpoint span (f : ascii -> bool) (s : string) : string * string :=
  match s with
  | String c s' => if f c then let '(a, r) := span f s' in (String c a, r) else ("", s)
  | "" => ("", "")
  end.
Definition parse_name (p : string) : option (string * string) :=
  match p with
  | "" => None
  | String c p' => if name_start c then let '(a, r) := span name_char p' in Some (String c a, r) else None
  end.

(** StrPair::ParseText, tinyxml2.cpp:193-216: the text before the next [endTag] and what
    follows the latter. *)
Fixpoint parse_text (endTag p : string) : option (string * string) :=
  match p with
  | "" => None
  | String c p' =>
      if at_ endTag p then Some ("", drop (String.length endTag) p)
      else match parse_text endTag p' with Some (a, r) => Some (String c a, r) | None => None end
  end.

(** The table of entities, tinyxml2.cpp:127-134, without the ampersand. *)
Definition entities : list (string * ascii) :=
  [("quot;", z2b 34); ("amp;", z2b 38); ("apos;", z2b 39); ("lt;", z2b 60); ("gt;", z2b 62)].
Fixpoint find_entity (l : list (string * ascii)) (p : string) : option (ascii * string) :=
  match l with
  | [] => None
  | (n, v) :: l' => if at_ n p then Some (v, drop (String.length n) p) else find_entity l' p
  end.

(** XMLUtil::ConvertUTF32ToUTF8, tinyxml2.cpp:403-453 *)
Definition low6 (n : Z) : ascii := z2b (128 + n mod 64).
Definition utf8 (n : Z) : string :=
  if n <? 128 then String (z2b n) ""
  else if n <? 2048 then String (z2b (192 + n / 64)) (String (low6 n) "")
  else if n <? 65536 then String (z2b (224 + n / 4096)) (String (low6 (n / 64)) (String (low6 n) ""))
  else if n <? 2097152 then
    String (z2b (240 + n / 262144)) (String (low6 (n / 4096)) (String (low6 (n / 64)) (String (low6 n) "")))
  else "".

(** The loops over the digits of a character reference, tinyxml2.cpp:484-506 and 530-545: from the last digit down to
    the character [stop]; [mult] is [unsigned], [ucs] a 64 bit [unsigned long]. *)
Definition ref_digit (base : Z) (c : ascii) : option Z :=
  let n := b2z c in
  if (48 <=? n) && (n <=? 57) then Some (n - 48)
  else if base =? 10 then None
  else if (97 <=? n) && (n <=? 102) then Some (n - 87)
  else if (65 <=? n) && (n <=? 70) then Some (n - 55)
  else None.
Fixpoint ref_value (base stop : Z) (l : list ascii) (mult ucs : Z) : option Z :=
  match l with
  | [] => Some ucs
  | c :: l' =>
      if b2z c =? stop then Some ucs else
      match ref_digit base c with
      | None => None
      | Some d => ref_value base stop l' (umul mult base) ((ucs + umul mult d) mod 2 ^ 64)
      end
  end.

(** XMLUtil::GetCharacterRef, tinyxml2.cpp:456-550, for a text [p] behind "&#": the bytes written and what follows;
    [None] is the null pointer. *)
Definition char_ref (p : string) : option (string * string) :=
  match p with
  | "" => Some ("", "#")
  | String c p' =>
      if b2z c =? 120 then
        match parse_text ";" p' with
        | None => None
        | Some (ds, r) =>
            match ref_value 16 120 (rev (list_ascii_of_string ds)) 1 0 with
            | None => None
            | Some u => Some (utf8 u, r)
            end
        end
      else
        match parse_text ";" p with
        | None => None
        | Some (ds, r) =>
            match ref_value 10 35 (rev (list_ascii_of_string ds)) 1 0 with
            | None => None
            | Some u => Some (utf8 u, r)
            end
        end
  end.

(** StrPair::GetStr, tinyxml2.cpp:267-362: the loop from the read position [p] and the write position [q] on; both
    are rests of the same original text, as the characters from [q] on are still unchanged.  [ent]: process
    entities.  An ampersand that starts no entity keeps the character at the write position. *)
Definition LF : ascii := z2b 10.
Definition CR : ascii := z2b 13.
Definition skip_one (c : ascii) (p : string) : string :=
  match p with
  | String d p' => if b2z d =? b2z c then p' else p
  | "" => p
  end.
Definition head_or (c : ascii) (q : string) : ascii := match q with String d _ => d | "" => c end.
Fixpoint flush (fuel : nat) (ent : bool) (p q : string) : string :=
  match fuel, p with
  | O, _ | _, "" => ""
  | S f, String c p1 =>
      if b2z c =? 13 then String LF (flush f ent (skip_one LF p1) (tail q))
      else if b2z c =? 10 then String LF (flush f ent (skip_one CR p1) (tail q))
      else if ent && (b2z c =? 38) then
        if at_ "#" p1 then
          match char_ref (tail p1) with
          | None => String c (flush f ent p1 (tail q))
          | Some (out, r) => out ++ flush f ent r (drop (String.length out) q)
          end
        else
          match find_entity entities p1 with
          | Some (v, r) => String v (flush f ent r (tail q))
          | None => String (head_or c q) (flush f ent p1 (tail q))
          end
      else String c (flush f ent p1 (tail q))
  end.

(** The value as a C string. *)
Definition get_str (ent : bool) (s : string) : string := c_str (flush (String.length s) ent s s).

(** Nodes of the document tree.  Names need no processing.  [cdata]: XMLText::CData, tinyxml2.h:987-993. *)
Inductive node :=
| NElem (name : string) (attrs : list (string * string)) (kids : list node)
| NText (cdata : bool) (s : string)
| NComment (s : string)
| NDecl (s : string)
| NUnknown (s : string).

(** The numbers of XMLError, tinyxml2.h:508-531 *)
Definition XML_ERROR_PARSING_ELEMENT := 7.
Definition XML_ERROR_PARSING_ATTRIBUTE := 8.
Definition XML_ERROR_PARSING_TEXT := 10.
Definition XML_ERROR_PARSING_CDATA := 11.
Definition XML_ERROR_PARSING_COMMENT := 12.
Definition XML_ERROR_PARSING_DECLARATION := 13.
Definition XML_ERROR_PARSING_UNKNOWN := 14.
Definition XML_ERROR_EMPTY_DOCUMENT := 15.
Definition XML_ERROR_MISMATCHED_ELEMENT := 16.
Definition XML_ERROR_PARSING := 17.

(** XMLAttribute::ParseDeep, tinyxml2.cpp:1342-1367: name, value and what follows. *)
Definition parse_attr (p : string) : option (string * string * string) :=
  match parse_name p with
  | None => None
  | Some (name, p) =>
      match skip_ws p with
      | String c p1 =>
          if b2z c =? 61 then
            match skip_ws p1 with
            | String d p2 =>
                if (b2z d =? 34) || (b2z d =? 39) then
                  match parse_text (String d "") p2 with
                  | Some (v, r) => Some (name, get_str true v, r)
                  | None => None
                  end
                else None
            | "" => None
            end
          else None
      | "" => None
      end
  end.

(** XMLElement::FindAttribute and Attribute, tinyxml2.cpp:1501-1522 *)
Fixpoint attribute (l : list (string * string)) (name : string) : option string :=
  match l with
  | [] => None
  | (n, v) :: l' => if String.eqb n name then Some v else attribute l' name
  end.

(** XMLElement::ParseAttributes, tinyxml2.cpp:1801-1858.  [acc]: the attributes before.  The result is an
    error, or the attributes, whether the tag is closed ("/>"), and what follows.  The number [fuel] of
    steps is never used up when it is at least the length of the text. *)
Inductive ares := AErr (e : Z) | AOk (attrs : list (string * string)) (closed : bool) (p : string).
Fixpoint parse_attrs (fuel : nat) (acc : list (string * string)) (p : string) : ares :=
  match fuel, skip_ws p with
  | O, _ | _, "" => AErr XML_ERROR_PARSING_ELEMENT
  | S f, String c p1 =>
      if name_start c then
        match parse_attr (String c p1) with
        | None => AErr XML_ERROR_PARSING_ATTRIBUTE
        | Some (n, v, r) =>
            match attribute acc n with
            | Some _ => AErr XML_ERROR_PARSING_ATTRIBUTE
            | None => parse_attrs f (acc ++ [(n, v)])%list r
            end
        end
      else if b2z c =? 62 then AOk acc false p1
      else if (b2z c =? 47) && at_ ">" p1 then AOk acc true (tail p1)
      else AErr XML_ERROR_PARSING_ELEMENT
  end.

(** What XMLNode::ParseDeep gives: an error, or the nodes read and, if a closing tag ended them, what follows it and
    its name ([None]: the text ended). *)
Inductive pres := Fail (e : Z) | Done (kids : list node) (rest : option (string * string)).
Definition push (n : node) (r : pres) : pres :=
  match r with Done k e => Done (n :: k) e | Fail e => Fail e end.

(** XMLNode::ParseDeep, tinyxml2.cpp:988-1085, with XMLDocument::Identify, :656-723, and the
    functions ParseDeep of the kinds of nodes, :1133-1157, 1198-1206, 1247-1255, 1295-1303 and 1884-1909.
    [top]: the nodes of the document itself; [decls]: so far only declarations.  Nodes read before an error
    are not kept.  [fuel]: as above; [parse_fuel] in L_Xml.v. *)
Fixpoint parse_nodes (fuel : nat) (top decls : bool) (p : string) : pres :=
  match fuel with
  | O => Fail XML_ERROR_PARSING
  | S f =>
      let q := skip_ws p in
      match q with
      | "" => Done [] None
      | _ =>
          if at_ "<?" q then
            match parse_text "?>" (drop 2 q) with
            | None => Fail XML_ERROR_PARSING_DECLARATION
            | Some (t, r) =>
                if top && decls then push (NDecl (get_str false t)) (parse_nodes f top decls r)
                else Fail XML_ERROR_PARSING_DECLARATION
            end
          else if at_ "<!--" q then
            match parse_text "-->" (drop 4 q) with
            | None => Fail XML_ERROR_PARSING_COMMENT
            | Some (t, r) => push (NComment (get_str false t)) (parse_nodes f top false r)
            end
          else if at_ "<![CDATA[" q then
            match parse_text "]]>" (drop 9 q) with
            | None => Fail XML_ERROR_PARSING_CDATA
            | Some (t, r) => push (NText true (get_str false t)) (parse_nodes f top false r)
            end
          else if at_ "<!" q then
            match parse_text ">" (drop 2 q) with
            | None => Fail XML_ERROR_PARSING_UNKNOWN
            | Some (t, r) => push (NUnknown (get_str false t)) (parse_nodes f top false r)
            end
          else if at_ "<" q then
            let q1 := skip_ws (drop 1 q) in
            let closing := at_ "/" q1 in
            match parse_name (if closing then drop 1 q1 else q1) with
            | None => Fail XML_ERROR_PARSING
            | Some (name, q3) =>
                match parse_attrs (S (String.length q3)) [] q3 with
                | AErr e => Fail e
                | AOk attrs true q4 => push (NElem name attrs []) (parse_nodes f top false q4)
                | AOk attrs false q4 =>
                    if closing then Done [] (Some (q4, name))
                    else if String.eqb q4 "" then Fail XML_ERROR_MISMATCHED_ELEMENT
                    else
                      match parse_nodes f false false q4 with
                      | Fail e => Fail e
                      | Done _ None => Fail XML_ERROR_PARSING
                      | Done kids (Some (q5, en)) =>
                          if String.eqb en name then push (NElem name attrs kids) (parse_nodes f top false q5)
                          else Fail XML_ERROR_MISMATCHED_ELEMENT
                      end
                end
            end
          else
            match parse_text "<" p with
            | None => Fail XML_ERROR_PARSING_TEXT
            | Some (t, r) =>
                if String.eqb r "" then Fail XML_ERROR_PARSING
                else push (NText false (get_str true t)) (parse_nodes f top false ("<" ++ r))
            end
      end
  end.

(** XMLUtil::ReadBOM, tinyxml2.cpp:385-400 *)
Definition bom : string := String (z2b 239) (String (z2b 187) (String (z2b 191) "")).
Definition read_bom (p : string) : string := if at_ bom p then drop 3 p else p.

(** XMLDocument::LoadFile(FILE * ), tinyxml2.cpp:2188-2231, and Parse, :2349-2363: the nodes of the document or the
    number of the error.  Reading the file and getting memory for it do not fail. *)
Definition load_text (text : string) : list node + Z :=
  let p := read_bom (skip_ws (c_str text)) in
  match p with
  | "" => inr XML_ERROR_EMPTY_DOCUMENT
  | _ =>
      match parse_nodes (S (String.length p)) true true p with
      | Done kids _ => inl kids
      | Fail e => inr e
      end
  end.

(** ** Functions of the tree *)

(** XMLNode::FirstChildElement, FirstChildElement(name), tinyxml2.cpp:940-950, and the elements
    NextSiblingElement(), :964-974, runs through. *)
Definition kids (n : node) : list node := match n with NElem _ _ k => k | _ => [] end.
Definition attrs (n : node) : list (string * string) := match n with NElem _ a _ => a | _ => [] end.
Definition name_of (n : node) : string := match n with NElem s _ _ => s | _ => "" end.
Definition is_elem (n : node) : bool := match n with NElem _ _ _ => true | _ => false end.
Definition elems (n : node) : list node := filter is_elem (kids n).
Definition child (n : node) (name : string) : option node :=
  List.find (fun m => String.eqb (name_of m) name) (elems n).

(** XMLElement::GetText, tinyxml2.cpp:1566-1572 *)
Definition get_text (n : node) : option string :=
  match kids n with NText _ s :: _ => Some s | _ => None end.

(** QueryIntText and QueryDoubleText, tinyxml2.cpp:1634-1645 and 1686-1697; [None]: nothing assigned. *)
Definition q_int_text (n : node) : res (option Z) :=
  match get_text n with Some s => scan_int s | None => Ok None end.
Definition q_double_text (n : node) : option Z :=
  match get_text n with Some s => scan_double s | None => None end.

(** QueryIntAttribute, QueryUnsignedAttribute and QueryDoubleAttribute, tinyxml2.h:1313-1356 with tinyxml2.cpp:1376-1428 *)
Definition q_int_attr (n : node) (name : string) : res (option Z) :=
  match attribute (attrs n) name with Some s => scan_int s | None => Ok None end.
Definition q_unsigned_attr (n : node) (name : string) : res (option Z) :=
  match attribute (attrs n) name with Some s => scan_unsigned s | None => Ok None end.
Definition q_double_attr (n : node) (name : string) : option Z :=
  match attribute (attrs n) name with Some s => scan_double s | None => None end.
