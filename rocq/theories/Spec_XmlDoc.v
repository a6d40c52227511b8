(** Specification vocabulary for XML documents in any layout and for edited logs. *)

From Coq Require Import ZArith Ascii String List Bool.
From Verif Require Import Base M_Bytes Spec_Xml M_Xml.
Import ListNotations.
Open Scope string_scope.
Open Scope list_scope.
Open Scope Z_scope.

(** ** Texts that stand for nodes *)

(** Numerals to base 10 or 16. *)
Definition digit_of (base : Z) (c : ascii) (d : Z) : Prop :=
  48 <= b2z c <= 57 /\ d = b2z c - 48 \/
  base = 16 /\ (97 <= b2z c <= 102 /\ d = b2z c - 97 + 10 \/ 65 <= b2z c <= 70 /\ d = b2z c - 65 + 10).
Inductive numeral (base : Z) : string -> Z -> Prop :=
| nu_one c d : digit_of base c d -> numeral base (String c "") d
| nu_more s n c d : numeral base s n -> digit_of base c d -> numeral base (s ++ String c "") (base * n + d).

(** The bytes of a character in UTF-8 (not NUL). *)
Inductive encodes : Z -> string -> Prop :=
| en_1 n : 0 < n < 128 -> encodes n (String (z2b n) "")
| en_2 a b : 2 <= a < 32 -> 0 <= b < 64 -> encodes (64 * a + b) (String (z2b (192 + a)) (String (z2b (128 + b)) ""))
| en_3 a b c : 0 <= a < 16 -> 0 <= b < 64 -> 0 <= c < 64 -> 2048 <= 4096 * a + 64 * b + c ->
    encodes (4096 * a + 64 * b + c) (String (z2b (224 + a)) (String (z2b (128 + b)) (String (z2b (128 + c)) "")))
| en_4 a b c d : 0 <= a < 8 -> 0 <= b < 64 -> 0 <= c < 64 -> 0 <= d < 64 -> 65536 <= 262144 * a + 4096 * b + 64 * c + d ->
    encodes (262144 * a + 4096 * b + 64 * c + d) (String (z2b (240 + a)) (String (z2b (128 + b)) (String (z2b (128 + c)) (String (z2b (128 + d)) "")))).

(** Raw text and its value: characters other than NUL, carriage return, [&] and [<] stand for themselves, the rest is
    written as an entity or by its number. *)
Definition entity_names : list (string * string) := [("lt", "<"); ("gt", ">"); ("amp", "&"); ("quot", """"); ("apos", "'")].
Inductive cooked : string -> string -> Prop :=
| ck_nil : cooked "" ""
| ck_char c raw v : plain (b2z c) -> cooked raw v -> cooked (String c raw) (String c v)
| ck_entity n x raw v : In (n, x) entity_names -> cooked raw v -> cooked ("&" ++ n ++ ";" ++ raw) (x ++ v)
| ck_dec s n x raw v : numeral 10 s n -> encodes n x -> cooked raw v -> cooked ("&#" ++ s ++ ";" ++ raw) (x ++ v)
| ck_hex s n x raw v : numeral 16 s n -> encodes n x -> cooked raw v -> cooked ("&#x" ++ s ++ ";" ++ raw) (x ++ v).

(** [name = "value"] or [name = 'value'], with white space around the sign. *)
Inductive attr_layout : string -> string * string -> Prop :=
| al_double n w1 w2 raw v : xml_name n -> chars space w1 -> chars space w2 -> cooked raw v -> chars (fun c => c <> 34) raw ->
    attr_layout (n ++ w1 ++ "=" ++ w2 ++ """" ++ raw ++ """") (n, v)
| al_single n w1 w2 raw v : xml_name n -> chars space w1 -> chars space w2 -> cooked raw v -> chars (fun c => c <> 39) raw ->
    attr_layout (n ++ w1 ++ "=" ++ w2 ++ "'" ++ raw ++ "'") (n, v).
Inductive attrs_layout : string -> list (string * string) -> Prop :=
| as_end w : chars space w -> attrs_layout w []
| as_attr w t a s l : chars space w -> w <> ""%string -> attr_layout t a -> attrs_layout s l -> attrs_layout (w ++ t ++ s) (a :: l).

(** [e] ends the text [t] and comes nowhere before in [t e]. *)
Definition ends_first (e t : string) : Prop := forall a b, (t ++ e = a ++ e ++ b)%string -> b = ""%string.
Definition raw_text (s : string) : Prop := chars (fun n => n <> 0 /\ n <> 13) s.
Definition starts (p s : string) : Prop := exists r, s = (p ++ r)%string.

(** The content of an element: white space, comments, CDATA sections, [<!...>], elements, and texts, which
    reach to the next mark. *)
Inductive content : string -> list node -> Prop :=
| co_end w : chars space w -> content w []
| co_text raw v s l : cooked raw v -> ~ chars space raw -> s = ""%string \/ starts "<" s -> content s l -> content (raw ++ s) (NText false v :: l)
| co_comment w t s l : chars space w -> raw_text t -> ends_first "-->" t -> content s l ->
    content (w ++ "<!--" ++ t ++ "-->" ++ s) (NComment t :: l)
| co_cdata w t s l : chars space w -> raw_text t -> ends_first "]]>" t -> content s l ->
    content (w ++ "<![CDATA[" ++ t ++ "]]>" ++ s) (NText true t :: l)
| co_unknown w t s l : chars space w -> raw_text t -> ends_first ">" t -> ~ starts "--" (t ++ ">") -> ~ starts "[CDATA[" (t ++ ">") -> content s l ->
    content (w ++ "<!" ++ t ++ ">" ++ s) (NUnknown t :: l)
| co_closed w n ta a s l : chars space w -> xml_name n -> attrs_layout ta a -> NoDup (map fst a) -> content s l ->
    content (w ++ "<" ++ n ++ ta ++ "/>" ++ s) (NElem n a [] :: l)
| co_elem w n ta a tk k w2 s l : chars space w -> xml_name n -> attrs_layout ta a -> NoDup (map fst a) -> content tk k -> chars space w2 -> content s l ->
    content (w ++ "<" ++ n ++ ta ++ ">" ++ tk ++ "</" ++ n ++ w2 ++ ">" ++ s) (NElem n a k :: l).

Definition is_text (n : node) : bool := match n with NText _ _ => true | _ => false end.

(** A file: perhaps a byte order mark, perhaps a declaration, and nodes, which are not texts. *)
Inductive document : string -> list node -> Prop :=
| do_plain b s l : b = ""%string \/ b = bom -> content s l -> l <> [] -> Forall (fun n => is_text n = false) l -> document (b ++ s) l
| do_decl b w t s l : b = ""%string \/ b = bom -> chars space w -> raw_text t -> ends_first "?>" t -> content s l -> Forall (fun n => is_text n = false) l ->
    document (b ++ w ++ "<?" ++ t ++ "?>" ++ s) (NDecl t :: l).

(** ** What counts in a log *)

(** The kinds of elements of a log.  Which children are looked up by name and of what kind they are, which are lists,
    whose name or text counts, and which attributes. *)
Inductive role := RDoc | RFile | RZone | RText | RVars | RVar | RAux | REntry | RZones | RTriple | RDatas | RData.
Definition fields (r : role) : list (string * role) :=
  match r with
  | RDoc => [("File", RFile)]
  | RFile => [("FilePath", RText); ("Time", RText); ("UsingTime", RText); ("Title", RText); ("FileType", RText);
              ("Variables", RVars); ("Auxiliary", RAux); ("Zones", RZones)]
  | RZone => [("ZoneName", RText); ("StrandId", RText); ("SolutionTime", RText); ("Org_Dim", RText); ("Real_Dim", RText);
              ("Org_Max", RTriple); ("Skip", RTriple); ("Begin", RTriple); ("End", RTriple); ("Real_Max", RTriple);
              ("Auxiliary", RAux); ("Datas", RDatas)]
  | _ => []
  end.
Definition items (r : role) : option role :=
  match r with
  | RVars => Some RVar | RAux => Some REntry | RZones => Some RZone | RTriple => Some RText | RDatas => Some RData
  | _ => None
  end.
Definition named (r : role) : bool := match r with RVar | REntry => true | _ => false end.
Definition texted (r : role) : bool := match r with RText | REntry => true | _ => false end.
Definition atts (r : role) : list string :=
  match r with RFile => ["FileName"] | RData => ["type"; "size_i"; "file_pt"; "min"; "max"] | _ => [] end.

(** Behind the children [k1] something may be put in: not in front of a text that counts. *)
Definition free (r : role) (k1 : list node) : Prop := texted r = false \/ k1 <> [].

(** Edits that leave what counts as it is. *)
Inductive edit : role -> node -> node -> Prop :=
| ed_same r x : edit r x x
| ed_then r x y z : edit r x y -> edit r y z -> edit r x z
| ed_undo r x y : edit r x y -> edit r y x
(* the name of an element that is found by its place *)
| ed_name r n n' a k : named r = false -> edit r (NElem n a k) (NElem n' a k)
(* other attributes; the order of attributes *)
| ed_attr r n a1 x v a2 k : ~ In x (atts r) -> edit r (NElem n (a1 ++ a2) k) (NElem n (a1 ++ (x, v) :: a2) k)
| ed_attr_order r n a1 x y a2 k : fst x <> fst y -> edit r (NElem n (a1 ++ x :: y :: a2) k) (NElem n (a1 ++ y :: x :: a2) k)
(* comments, texts between elements and so on *)
| ed_note r n a k1 c k2 : is_elem c = false -> free r k1 -> edit r (NElem n a (k1 ++ k2)) (NElem n a (k1 ++ c :: k2))
(* elements nobody asks for *)
| ed_extra r n a k1 c k2 : items r = None -> ~ In (name_of c) (map fst (fields r)) -> free r k1 ->
    edit r (NElem n a (k1 ++ k2)) (NElem n a (k1 ++ c :: k2))
(* a second element of the same name *)
| ed_second r n a k1 b c k2 : items r = None -> In b k1 -> is_elem b = true -> name_of b = name_of c ->
    edit r (NElem n a (k1 ++ k2)) (NElem n a (k1 ++ c :: k2))
(* the order of children that are found by their names *)
| ed_order r n a k1 b c k2 : items r = None -> is_elem b = true -> is_elem c = true -> name_of b <> name_of c -> free r k1 ->
    edit r (NElem n a (k1 ++ b :: c :: k2)) (NElem n a (k1 ++ c :: b :: k2))
(* edits of children *)
| ed_field r f s n a k1 c c' k2 : In (f, s) (fields r) -> name_of c = f -> name_of c' = f -> is_elem c = true -> is_elem c' = true -> edit s c c' ->
    edit r (NElem n a (k1 ++ c :: k2)) (NElem n a (k1 ++ c' :: k2))
| ed_item r s n a k1 c c' k2 : items r = Some s -> is_elem c = true -> is_elem c' = true -> edit s c c' ->
    edit r (NElem n a (k1 ++ c :: k2)) (NElem n a (k1 ++ c' :: k2)).

(** The nodes of a document as the children of one element. *)
Definition doc (l : list node) : node := NElem "" [] l.
