(** Specification vocabulary for settings kept in an XML file. *)

From Coq Require Import ZArith Ascii String List Bool.
From Verif Require Import Base M_Bytes Spec_Xml M_Xml Spec_XmlDoc.
Import ListNotations.
Open Scope string_scope.
Open Scope list_scope.
Open Scope Z_scope.

(** The name of an element; other nodes have none. *)
Definition tag (n : node) : option string := match n with NElem t _ _ => Some t | _ => None end.

(** [c] is the first element called [name] among [l]; none is. *)
Definition first (l : list node) (name : string) (c : node) : Prop :=
  exists l1 l2, l = l1 ++ c :: l2 /\ tag c = Some name /\ Forall (fun n => tag n <> Some name) l1.
Definition missing (l : list node) (name : string) : Prop := Forall (fun n => tag n <> Some name) l.

(** The path of names [p] leads from an element down to [m].  A name counts up to its first NUL, if it has one. *)
Inductive leads : node -> list string -> node -> Prop :=
| le_here n : leads n [] n
| le_down t a k name c p m : first k (c_str name) c -> leads c p m -> leads (NElem t a k) (name :: p) m.

(** An integer as people write it: blanks, a sign, digits; [rest] is what follows. *)
Definition sign_of (s : string) (neg : bool) : Prop := s = "-" /\ neg = true \/ (s = "+" \/ s = "") /\ neg = false.
Definition no_digit_first (s : string) : Prop := forall c r, s = String c r -> ~ 48 <= b2z c <= 57.
Inductive says_int : string -> Z -> Prop :=
| si w sg neg ds n rest : chars space w -> sign_of sg neg -> numeral 10 ds n -> no_digit_first rest ->
    says_int (w ++ sg ++ ds ++ rest) (if neg : bool then - n else n).

(** Nodes put into a document: [grown R seen k k'] where the nodes [k] with tags in [seen] in front have become [k'].  An element
    may be put anywhere but in front of the first one that has its name. *)
Inductive grown (R : node -> node -> Prop) : list (option string) -> list node -> list node -> Prop :=
| gr_nil seen : grown R seen [] []
| gr_keep seen n n' k k' : R n n' -> grown R (tag n :: seen) k k' -> grown R seen (n :: k) (n' :: k')
| gr_new seen x k k' : (tag x = None \/ In (tag x) seen \/ ~ In (tag x) (map tag k)) -> grown R seen k k' -> grown R seen k (x :: k').

(** The same with the nodes inside; further attributes; nothing in front of a text an element begins with. *)
Inductive more : node -> node -> Prop :=
| mo_same n : more n n
| mo_elem t a a' k k' : (forall x v, attribute a x = Some v -> attribute a' x = Some v) -> grown more [] k k' ->
    (forall c v l, k = NText c v :: l -> exists l', k' = NText c v :: l') -> more (NElem t a k) (NElem t a' k').

(** A decimal number as people write it: [2], [-0.25], [.5], [6.02e23], [1E-3]; behind it nothing or white space.  It stands for
    plus or minus [a / b]. *)
Inductive exponent_text : string -> Z -> Prop :=
| ex_none : exponent_text "" 0
| ex_some e sg neg ds x : e = "e" \/ e = "E" -> sign_of sg neg -> numeral 10 ds x ->
    exponent_text (e ++ sg ++ ds) (if neg : bool then - x else x).
Definition ends_number (s : string) : Prop := forall c r, s = String c r -> space (b2z c).
Inductive says_double : string -> bool -> Z -> Z -> Prop :=
| sd w sg neg ip pt fp n ex e rest : chars space w -> sign_of sg neg -> numeral 10 (ip ++ fp) n ->
    pt = "." \/ pt = "" /\ fp = "" -> exponent_text ex e -> ends_number rest ->
    says_double (w ++ sg ++ ip ++ pt ++ fp ++ ex ++ rest) neg
      (n * 10 ^ Z.max 0 (e - Z.of_nat (String.length fp))) (10 ^ Z.max 0 (Z.of_nat (String.length fp) - e)).

(** [y] is a finite [double], and none is nearer to plus or minus [a / b]. *)
Definition nearest (y : Z) (neg : bool) (a b : Z) : Prop :=
  exists v, num64 y = Fin v /\ forall y' v', num64 y' = Fin v' ->
    let x := (if neg then - a else a) * 2 ^ 1074 in Z.abs (v * b - x) <= Z.abs (v' * b - x).
(** [a / b] is at most the largest finite [double]. *)
Definition in_double (a b : Z) : Prop := a <= (2 ^ 53 - 1) * 2 ^ 971 * b.
