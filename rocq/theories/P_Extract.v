(** Property C55: what get_auxiliary_data puts into the variable.

    Reading guide (Spec_Aux.v, Spec_Extract.v).  [add_all [] l1 = (a1, bs)]: a file or a zone after the calls
    add_auxiliary_data(name, text) of [l1]; then comes one more call for the name [n], which succeeds, and then the
    calls [l2].  [get_auxiliary_as extract what owner a n old] is the value of a variable after
    get_auxiliary_data(n, variable), where [old] is its value before and [extract] the operator>> of its type.
    [near_abs 6 x y]: the distance is at most 10^-6 plus 10^-15 of [x]; [six_decimals b]: six decimals describe the
    number exactly; [first_word s w]: [w] is the first word of [s]. *)

From Coq Require Import ZArith Ascii String List Bool Lia.
From Verif Require Import Base M_Bytes M_TecZone M_TecFile M_Extract Spec_Tec Spec_Plt Spec_Aux Spec_Xml Spec_Extract P_TecFile
  M_Xml M_ReadXml L_Extract L_ReadLog L_XmlRead P_Xml.
Import ListNotations.
Open Scope list_scope.
Open Scope Z_scope.

(** A finite number comes back near; one of six decimals comes back bit by bit. *)
Theorem C55_number l1 a1 bs1 n b v a2 l2 a3 bs2 what owner old :
  add_all [] l1 = (a1, bs1) -> add_auxiliary_double a1 n b = Ok (a2, true) -> add_all a2 l2 = (a3, bs2) ->
  num64 b = Fin v -> Z.abs v < 10 ^ 190 * 2 ^ 1074 ->
  exists y, get_auxiliary_as extract_double what owner a3 n old = Ok y /\ near_abs 6 b y /\ (six_decimals b -> y = b).
Proof. intros E1 E2 E3 Hv HB. exact (got_number l1 l2 a1 a2 a3 bs1 bs2 n what owner E1 E3 b v old Hv HB E2). Qed.
Print Assumptions C55_number.

(** An infinity or a NaN comes back as 0. *)
Theorem C55_special l1 a1 bs1 n b a2 l2 a3 bs2 what owner old :
  add_all [] l1 = (a1, bs1) -> add_auxiliary_double a1 n b = Ok (a2, true) -> add_all a2 l2 = (a3, bs2) ->
  (forall v, num64 b <> Fin v) -> get_auxiliary_as extract_double what owner a3 n old = Ok 0.
Proof. intros E1 E2 E3 Hv. exact (got_special l1 l2 a1 a2 a3 bs1 bs2 n what owner E1 E3 b old Hv E2). Qed.
Print Assumptions C55_special.

(** So numbers do not come back in general: an infinity, and 2^-30 which becomes 0. *)
Theorem C55_number_refuted :
  (exists b a, num64 b = PInf /\ add_auxiliary_double [] "x" b = Ok (a, true) /\
     forall what owner old, get_auxiliary_as extract_double what owner a "x" old = Ok 0) /\
  (exists b a, num64 b = Fin (2 ^ 1044) /\ add_auxiliary_double [] "x" b = Ok (a, true) /\
     forall what owner old, get_auxiliary_as extract_double what owner a "x" old = Ok 0).
Proof.
  split.
  - exists (2047 * 2 ^ 52), [("x", "inf")]%string. repeat split; vm_compute; reflexivity.
  - exists (993 * 2 ^ 52), [("x", "0.000000")]%string. repeat split; vm_compute; reflexivity.
Qed.
Print Assumptions C55_number_refuted.

(** A [std::string] variable gets the first word of the text ... *)
Theorem C55_text l1 a1 bs1 n t a2 l2 a3 bs2 what owner :
  add_all [] l1 = (a1, bs1) -> add_auxiliary_data a1 n t = (a2, true) -> add_all a2 l2 = (a3, bs2) ->
  (exists w, first_word t w /\ forall old, get_auxiliary_as extract_string what owner a3 n old = Ok w) \/
  (all_white t /\ forall old, get_auxiliary_as extract_string what owner a3 n old = Ok old).
Proof.
  intros E1 E2 E3. destruct (words_total t) as [H|[w H]]; [right|left].
  - split; [exact H|]. exact (proj1 (got_blank l1 l2 a1 a2 a3 bs1 bs2 n what owner E1 E3 t E2 H)).
  - exists w. split; [exact H|]. intros old. exact (got_word l1 l2 a1 a2 a3 bs1 bs2 n what owner E1 E3 t w old E2 H).
Qed.
Print Assumptions C55_text.

(** ... so the whole text comes back exactly if it is one word. *)
Theorem C55_one_word l1 a1 bs1 n t a2 l2 a3 bs2 what owner :
  add_all [] l1 = (a1, bs1) -> add_auxiliary_data a1 n t = (a2, true) -> add_all a2 l2 = (a3, bs2) ->
  ((forall old, get_auxiliary_as extract_string what owner a3 n old = Ok t) <-> t <> ""%string /\ no_white t).
Proof.
  intros E1 E2 E3. rewrite <- one_word. split; intros H old; specialize (H old).
  - rewrite (got l1 l2 a1 a2 a3 bs1 bs2 n what owner E1 E3 _ t old E2) in H. congruence.
  - now rewrite (got l1 l2 a1 a2 a3 bs1 bs2 n what owner E1 E3 _ t old E2), H.
Qed.
Print Assumptions C55_one_word.

(** The text of an integer, got as [int] and as [unsigned]. *)
Theorem C55_integer l1 a1 bs1 n z a2 l2 a3 bs2 what owner old :
  add_all [] l1 = (a1, bs1) -> add_auxiliary_data a1 n (fmt_li z) = (a2, true) -> add_all a2 l2 = (a3, bs2) ->
  - 2 ^ 63 <= z < 2 ^ 63 ->
  get_auxiliary_as extract_int what owner a3 n old = Ok (Z.max INT_MIN (Z.min INT_MAX z)) /\
  get_auxiliary_as extract_unsigned what owner a3 n old = Ok (if Z.abs z <? UINT_MOD then z mod UINT_MOD else UINT_MOD - 1).
Proof. intros E1 E2 E3 Hz. exact (got_integer l1 l2 a1 a2 a3 bs1 bs2 n what owner E1 E3 z old Hz E2). Qed.
Print Assumptions C55_integer.

(** A blank text leaves the variable as it was, whatever its type. *)
Theorem C55_blank l1 a1 bs1 n t a2 l2 a3 bs2 what owner :
  add_all [] l1 = (a1, bs1) -> add_auxiliary_data a1 n t = (a2, true) -> add_all a2 l2 = (a3, bs2) -> all_white t ->
  (forall old, get_auxiliary_as extract_string what owner a3 n old = Ok old) /\
  (forall old, get_auxiliary_as extract_double what owner a3 n old = Ok old) /\
  (forall old, get_auxiliary_as extract_int what owner a3 n old = Ok old) /\
  (forall old, get_auxiliary_as extract_unsigned what owner a3 n old = Ok old).
Proof. intros E1 E2 E3. exact (got_blank l1 l2 a1 a2 a3 bs1 bs2 n what owner E1 E3 t E2). Qed.
Print Assumptions C55_blank.

(** The log that came back from XML gives the same answers as the file. *)
Theorem C55_log e f s g u depth :
  file_wf f -> plt_size f < 2 ^ 63 -> write_plt e f = Ret (s, g) u -> calm e -> xml_safe f -> plain_text (e_begin e) ->
  exists t g', xml_file g depth = Ok t /\
    (forall fs p, fs (c_str p) = Some (list_ascii_of_string t) -> read_log fs p = Ok g') /\
    forall T (extract : string -> T -> T) owner n old,
      get_auxiliary_as extract "file" owner (f_aux (fl_file g')) n old = get_auxiliary_as extract "file" owner (f_aux f) n old.
Proof.
  intros H1 H2 H3 H4 H5 H6. destruct (C43_log_round_trip e f s g u depth H1 H2 H3 H4 H5 H6) as (t & g' & T1 & T2 & T3).
  destruct (written_log e f s g u H1 H2 H3) as (b & _ & Ef & _).
  exists t, g'. split; [exact T1|]. split; [exact T3|]. intros. destruct T2 as (_ & _ & _ & _ & _ & Ea & _). rewrite Ea, Ef. reflexivity.
Qed.
Print Assumptions C55_log.

(** ** Examples *)

(** -0.75 with further data before and after comes back bit by bit; "two words" as "two". *)
Example C55_ex : exists a1 a2 a3,
  add_all [] [("m", "k"); ("t", "two  words")]%string = (a1, [true; true]) /\
  add_auxiliary_double a1 "p" 13828302655841107968 = Ok (a2, true) /\
  add_all a2 [("p", "1"); ("q", "2")]%string = (a3, [false; true]) /\
  six_decimals 13828302655841107968 /\ num64 13828302655841107968 = Fin (- 3 * 2 ^ 1072) /\
  get_auxiliary_as extract_double "file" "f" a3 "p" 0 = Ok 13828302655841107968 /\
  get_auxiliary_as extract_string "file" "f" a3 "t" "" = Ok "two"%string /\ first_word "two  words" "two".
Proof.
  eexists _, _, _. split; [reflexivity|]. split; [vm_compute; reflexivity|]. split; [reflexivity|].
  assert (E : num64 13828302655841107968 = Fin (- 3 * 2 ^ 1072)) by (vm_compute; reflexivity).
  split; [split; [split; [lia|reflexivity]|]; exists (- 3 * 2 ^ 1072), (-750000); split; [exact E|apply Z.eqb_eq; vm_compute; reflexivity]|].
  split; [exact E|]. split; [vm_compute; reflexivity|]. split; [reflexivity|].
  exists ""%string, "  words"%string. split; [reflexivity|]. split; [intros c []|]. split; [discriminate|].
  split; [intros c H; cbn in H; repeat destruct H as [<-|H]; try contradiction; cbv; intuition discriminate|].
  right. exists " "%char, " words"%string. split; [reflexivity|now left].
Qed.

(** A NaN; -1 and 3000000000 as [int] and [unsigned]; a blank text. *)
Example C55_ex_more :
  (forall v, num64 (2047 * 2 ^ 52 + 1) <> Fin v) /\ (exists a, add_auxiliary_double [] "x" (2047 * 2 ^ 52 + 1) = Ok (a, true)) /\
  add_auxiliary_data [] "x" (fmt_li (-1)) = ([("x", "-1")]%string, true) /\
  get_auxiliary_as extract_int "zone" "z" [("x", "-1")]%string "x" 7 = Ok (-1) /\
  get_auxiliary_as extract_unsigned "zone" "z" [("x", "-1")]%string "x" 7 = Ok 4294967295 /\
  get_auxiliary_as extract_int "zone" "z" [("x", "3000000000")]%string "x" 7 = Ok 2147483647 /\
  all_white "  " /\ get_auxiliary_as extract_int "zone" "z" [("x", "  ")]%string "x" 7 = Ok 7.
Proof.
  split; [intros v H; vm_compute in H; discriminate H|]. split; [eexists; vm_compute; reflexivity|].
  split; [reflexivity|]. split; [reflexivity|]. split; [reflexivity|]. split; [reflexivity|]. split; [|reflexivity].
  intros c H. cbn in H. repeat destruct H as [<-|H]; try contradiction; now left.
Qed.

(** The hypotheses of C55_log are those of C43_log_round_trip, see C43_ex and xml_safe_ex. *)
