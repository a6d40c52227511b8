(** Specification vocabulary for documents that TinyXML2 writes. *)

From Coq Require Import ZArith Ascii String List Bool.
From Verif Require Import Base M_Bytes Spec_Xml M_Xml Spec_XmlDoc M_XmlPrint.
Import ListNotations.
Open Scope string_scope.
Open Scope list_scope.
Open Scope Z_scope.

(** A text that is not in a CDATA section. *)
Definition plain_node (n : node) : bool := match n with NText false _ => true | _ => false end.
Definition heads (P : node -> bool) (l : list node) : bool := match l with x :: _ => P x | [] => false end.

(** Nodes inside an element that XML can express: names are names, no attribute comes twice, no NUL and no carriage
    return, plain texts are not blank and no two of them are neighbours, and what stands in CDATA sections, comments and
    [<!...>] does not contain the mark that ends them. *)
Inductive writable : list node -> Prop :=
| wr_nil : writable []
| wr_text v l : raw_text v -> ~ chars space v -> heads plain_node l = false -> writable l -> writable (NText false v :: l)
| wr_cdata t l : raw_text t -> ends_first "]]>" t -> writable l -> writable (NText true t :: l)
| wr_comment t l : raw_text t -> ends_first "-->" t -> writable l -> writable (NComment t :: l)
| wr_unknown t l : raw_text t -> ends_first ">" t -> ~ starts "--" (t ++ ">") -> ~ starts "[CDATA[" (t ++ ">") -> writable l ->
    writable (NUnknown t :: l)
| wr_elem n a k l : xml_name n -> NoDup (map fst a) -> Forall (fun x => xml_name (fst x) /\ raw_text (snd x)) a -> writable k -> writable l ->
    writable (NElem n a k :: l).

(** A document: perhaps a declaration, then nodes which are not texts. *)
Inductive writable_doc : list node -> Prop :=
| wd_plain l : l <> [] -> writable l -> Forall (fun n => is_text n = false) l -> writable_doc l
| wd_decl t l : raw_text t -> ends_first "?>" t -> writable l -> Forall (fun n => is_text n = false) l -> writable_doc (NDecl t :: l).

(** [4 * d] spaces. *)
Fixpoint blanks (n : nat) : string := match n with O => "" | S n' => String (z2b 32) (blanks n') end.
Definition indent (d : Z) : string := blanks (4 * Z.to_nat d).

(** The nodes [l] at depth [d], where every plain text directly in front of an element has got the indentation of this
    element. *)
Definition indented_by (inside : node -> node) (d : Z) : list node -> list node :=
  fix go l :=
    match l with
    | [] => []
    | x :: l' =>
        match x with
        | NText false v => NText false (if heads is_elem l' then v ++ indent d else v)
        | _ => inside x
        end :: go l'
    end.
Fixpoint indented_node (d : Z) (n : node) : node :=
  match n with
  | NElem name a k => NElem name a (indented_by (indented_node (d + 1)) (d + 1) k)
  | _ => n
  end.
Definition indented (l : list node) : list node := map (indented_node 0) l.

(** No plain text stands directly in front of an element. *)
Inductive unmixed : list node -> Prop :=
| un_nil : unmixed []
| un_elem n a k l : unmixed k -> unmixed l -> unmixed (NElem n a k :: l)
| un_other x l : is_elem x = false -> (plain_node x = true -> heads is_elem l = false) -> unmixed l -> unmixed (x :: l).

(** What a loaded document may be: plain texts that are not blank, and no carriage returns. *)
Inductive tidy : list node -> Prop :=
| ti_nil : tidy []
| ti_text v l : chars (fun n => n <> 13) v -> ~ chars space v -> tidy l -> tidy (NText false v :: l)
| ti_elem n a k l : Forall (fun x => chars (fun n => n <> 13) (snd x)) a -> tidy k -> tidy l -> tidy (NElem n a k :: l)
| ti_other x l : is_elem x = false -> plain_node x = false -> tidy l -> tidy (x :: l).
Definition is_decl (n : node) : bool := match n with NDecl _ => true | _ => false end.
(** Something, no text outside of the elements, and no second declaration. *)
Definition usual (l : list node) : Prop :=
  l <> [] /\ Forall (fun n => is_text n = false) l /\ Forall (fun n => is_decl n = false) (List.tl l).

(** A file is loaded and saved, once or several times: the text it holds then. *)
Definition resaved (compact : bool) (text : string) : option string :=
  match load_text text with inl l => Some (save compact (has_bom text) l) | inr _ => None end.
Fixpoint resaved_times (compact : bool) (n : nat) (text : string) : option string :=
  match n with
  | O => Some text
  | S n' => match resaved compact text with Some t => resaved_times compact n' t | None => None end
  end.
