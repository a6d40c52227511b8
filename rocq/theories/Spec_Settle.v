(** Logs that are written as XML, read and written again any number of times. *)

From Coq Require Import ZArith Ascii String List Bool.
From Verif Require Import Base M_Bytes M_TecZone M_TecFile Spec_Xml M_Scan M_Xml M_ReadXml.
Open Scope Z_scope.

(** [h] comes from [g] by writing [g] to an XML file, with any indentation and under any name, and reading it:
    once, or any number of times more, each time writing the log read last. *)
Definition rewrite_once (g h : file_log) : Prop :=
  exists depth t fs p, xml_file g depth = Ok t /\ fs (c_str p) = Some (list_ascii_of_string t) /\ read_log fs p = Ok h.
Inductive rewritten (g : file_log) : file_log -> Prop :=
| rewritten_once h : rewrite_once g h -> rewritten g h
| rewritten_more h k : rewritten g h -> rewrite_once h k -> rewritten g k.

(** The time used, in seconds, is below 2^35: a thousand years. *)
Definition millennium (x : Z) : Prop := forall v, num64 x = Fin v -> Z.abs v < 2 ^ 35 * 2 ^ 1074.

(** However often [g] is written and read, the log read is [h]: it says the same as [g] and is written to the
    same bytes as [g], as XML and as JSON, with any indentation. *)
Definition settles (g h : file_log) : Prop :=
  same_log g h /\ (forall depth, exists t, xml_file g depth = Ok t /\ xml_file h depth = Ok t) /\
  (forall depth, write_json h depth = write_json g depth) /\ forall k, rewritten g k <-> k = h.
