(** Properties C38 and C39: auxiliary data and echo modes.

    Reading guide (Spec_Aux.v).  [add_all a l] calls add_auxiliary_data for each pair of [l] in turn and collects
    the results; [first_with n l] is the first pair of [l] with the name [n]; [before] is the
    dictionary order of bytes.  [accepted strict N s]: the text [s] is one std::bitset<N> takes, by the
    C++ standard ([strict]) or in libstdc++; [flags_of N s n]: the flags [n] are those of the
    text. *)

From Coq Require Import ZArith Ascii String List Bool Lia Sorted.
From Verif Require Import Base M_Bytes M_TecZone M_TecFile Spec_Aux L_Aux.
Import ListNotations.
Open Scope list_scope.
Open Scope Z_scope.

(** ** C38: auxiliary data *)

(** A call succeeds exactly when the name is new; the map has the first pair of each name, in
    increasing order of names; a lookup finds the first value and throws for an unknown name. *)
Theorem C38_sequence l a bs :
 add_all [] l = (a, bs) ->
  (length bs = length l /\
   forall k n v, nth_error l k = Some (n, v) ->
     nth_error bs k = Some (match first_with n (firstn k l) with Some _ => false | None => true end)) /\
  (forall p, In p a <-> first_with (fst p) l = Some p) /\
  StronglySorted (fun p q => before (fst p) (fst q)) a /\
  (forall kind owner n, match first_with n l with
     | Some p => get_auxiliary_data kind owner a n = Ok (snd p)
     | None => exists m, get_auxiliary_data kind owner a n = Err (ETec m)
     end).
Proof. exact (@aux_sequence l a bs). Qed.
Print Assumptions C38_sequence.

(** A number below 10^190 is stored as its decimal text ... *)
Theorem C38_number a n v :
 (forall x, num64 v = Fin x -> Z.abs x < 10 ^ 190 * 2 ^ 1074) ->
  add_auxiliary_double a n v = Ok (add_auxiliary_data a n (fmt_lf 6 v)).
Proof. exact (@aux_number a n v). Qed.
Print Assumptions C38_number.

(** ... a larger one overruns the buffer of 200 characters: 1e200. *)
Theorem C38_large_number_refuted :
  exists v, num64 v <> NaN /\ num64 v <> PInf /\ num64 v <> MInf /\ forall a n, add_auxiliary_double a n v = UB.
Proof.
  exists 7598952565167317594. split; [|split; [|split]]; try (vm_compute; discriminate).
  intros a n. unfold add_auxiliary_double.
  replace (sprintf 200 (fmt_lf 6 7598952565167317594)) with (@UB string); [reflexivity|]. vm_compute. reflexivity.
Qed.
Print Assumptions C38_large_number_refuted.

Example C38_ex : add_all [] [("b", "1"); ("a", "2"); ("b", "3"); ("ab", "4")]%string
  = ([("a", "2"); ("ab", "4"); ("b", "1")]%string, [true; true; false; true]).
Proof. reflexivity. Qed.
Example C38_ex_number : forall x, num64 4607182418800017408 = Fin x -> Z.abs x < 10 ^ 190 * 2 ^ 1074.
Proof. intros x E. vm_compute in E. injection E as <-. vm_compute. reflexivity. Qed.

(** ** C39: echo modes *)

(** A text for the file that is not accepted changes nothing; otherwise the flags of the file are set, and then,
    if the text for the zones is accepted, those of every zone.  A text for the zones that is not
    accepted throws after the flags of the file were set, but only if there is a zone. *)
Theorem C39_modes strict file zone f :
  (* the file's text is not accepted: nothing changes *)
  (file <> "leave"%string -> ~ accepted strict 7 (file_text file) ->
     exists m, set_echo_mode strict file zone f = Thr f (ETec m)) /\
  (* otherwise the file's flags are set *)
  (file = "leave"%string \/ accepted strict 7 (file_text file) ->
   exists n, ((file = "leave"%string /\ n = f_echo f) \/ (file <> "leave"%string /\ flags_of 7 (file_text file) n)) /\
   (zone = "leave"%string -> set_echo_mode strict file zone f = Ret (with_flags f n) tt) /\
   (zone <> "leave"%string -> accepted strict 9 (zone_text zone) ->
      exists k, flags_of 9 (zone_text zone) k /\
        set_echo_mode strict file zone f = Ret (with_zones (with_flags f n) (map (zone_with_flags k) (f_zones f))) tt) /\
   (zone <> "leave"%string -> ~ accepted strict 9 (zone_text zone) ->
      (f_zones f = [] -> set_echo_mode strict file zone f = Ret (with_flags f n) tt) /\
      (f_zones f <> [] -> exists m, set_echo_mode strict file zone f = Thr (with_flags f n) (ETec m)))).
Proof. exact (@echo_modes strict file zone f). Qed.
Print Assumptions C39_modes.

(** Setting the flags is therefore not all or nothing. *)
Theorem C39_all_or_nothing_refuted :
  exists f file zone f' x, set_echo_mode true file zone f = Thr f' x /\ f' <> f.
Proof.
  exists (mkFile "." "f" "t" [] 0 [] [new_zone "z"] 39), "none"%string, "loud"%string. eexists _, _.
  split; [vm_compute; reflexivity|]. vm_compute. discriminate.
Qed.
Print Assumptions C39_all_or_nothing_refuted.

Example C39_ex : accepted true 7 (file_text "brief") /\ flags_of 7 (file_text "brief") 39 /\ accepted true 9 (zone_text "101") /\
  flags_of 9 (zone_text "101") 5 /\ ~ accepted true 9 (zone_text "loud").
Proof.
  split; [intros c H; cbn in H; intuition congruence|]. split.
  { split; [lia|]. cbv zeta. intros i. do 7 (destruct i as [|i]; [vm_compute; split; congruence|]).
    rewrite (proj2 (nth_error_None _ _)) by (cbn; lia). rewrite Z.bits_above_log2; [split; discriminate|lia|cbn [Z.log2 Pos.size]; lia]. }
  split; [intros c H; cbn in H; intuition congruence|]. split.
  { split; [lia|]. cbv zeta. intros i. do 3 (destruct i as [|i]; [vm_compute; split; congruence|]).
    rewrite (proj2 (nth_error_None _ _)) by (cbn; lia). rewrite Z.bits_above_log2; [split; discriminate|lia|cbn [Z.log2 Pos.size]; lia]. }
  intros C. destruct (C "l"%char); [left; reflexivity|discriminate|discriminate].
Qed.
