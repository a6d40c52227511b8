(** Properties C34, C35 and C40 to C42: writing a .plt file and its log.

    Reading guide (Spec_Plt.v).  [write_plt e f] writes the file described by [f]; [e] is what the
    surroundings decide: whether the file can be opened, which allocations fail, what the clock says.
    A result is [Ret (s, g)], [Thr (s, g)] (an exception) or [Undef] (undefined behaviour), with [s] the file
    system and [g] the log.  [disk s]: the file's bytes, [None] if it was not created; [live s]: temporary
    buffers that were not freed.  [parse_plt] reads the Tecplot layout, [shows f p] says that what was read is
    the description [f].  [file_wf f]: the numbers of the description are [int], no product of
    sizes overflows and the arrays are as long as the description says.  [refused f]: some description the library
    must not accept.  [short f]: the texts fit the fixed buffers.  [starved e f i k]: the
    buffer of variable [k] of zone [i] is needed but cannot be allocated. *)

From Coq Require Import ZArith Ascii String List Bool Lia.
From Verif Require Import Base M_Bytes M_TecZone M_TecFile Spec_Loop Spec_Tec Spec_Plt L_TecProp.
Import ListNotations.
Open Scope list_scope.
Open Scope Z_scope.

(** ** C34: the file can be read back *)

Theorem C34_parse e f s g u :
  file_wf f -> plt_size f < 2 ^ 63 -> Forall no_nul (texts_of f) ->
  write_plt e f = Ret (s, g) u ->
  exists b p, disk s = Some b /\ parse_plt b = Some p /\ shows f p.
Proof. exact (@plt_parse e f s g u). Qed.
Print Assumptions C34_parse.

(** Two zones with two variables.  The first is sampled (2 x 2 x 1 points of 7 x 4 x 3), the second
    is taken whole. *)
Definition shorts : bytes := map (fun k => z2b (Z.of_nat k)) (seq 0 168).
Definition signed_chars : bytes := map (fun k => z2b (Z.of_nat (k * 3))) (seq 0 84).
Definition floats : bytes := map z2b [0; 0; 128; 63; 0; 0; 0; 192].
Definition doubles : bytes := map z2b [0; 0; 0; 0; 0; 0; 240; 63; 0; 0; 0; 0; 0; 0; 0; 192].
Definition zone1 : zone :=
  mkZone "low" 3 4607182418800017408 (mk3 7 4 3) (mk3 3 2 1) (mk3 1 0 1) (mk3 2 0 1) [("a", "1"); ("b", "x y")]%string
    [mkData TEC_SHORTINT 2 (Some shorts); mkData TEC_BYTE 1 (Some signed_chars)] 9.
Definition zone2 : zone :=
  mkZone "high" (-1) 0 (mk3 2 1 1) (mk3 1 1 1) (mk3 0 0 0) (mk3 0 0 0) []
    [mkData TEC_FLOAT 4 (Some floats); mkData TEC_DOUBLE 8 (Some doubles)] 511.
Definition file_ex : tfile :=
  mkFile "." "out" "a title" ["x"; "y"]%string 0 [("made", "by hand")]%string [zone1; zone2] 127.
Definition env_ex : env :=
  mkEnv true (fun _ _ => false) "2026-11-17 09:00:00" "2026-11-17 09:00:01" 4598175219545276416.

Ltac made_by c := split; [right; exists c; eexists; reflexivity|intros mem E; injection E as <-; vm_compute; congruence].
Ltac zone_numbers :=
  unfold zone_wf; split; [unfold all_dirs, dir_ints, in_int; cbn; lia|]; split; [unfold all_dirs; cbn; lia|];
  split; [vm_compute; congruence|]; split; [unfold in_int; cbn; lia|]; split; [cbn; lia|].
Example zone1_wf : zone_wf zone1.
Proof. zone_numbers. apply Forall_cons; [made_by CShort|]. apply Forall_cons; [made_by CSChar|]. apply Forall_nil. Qed.
Example zone2_wf : zone_wf zone2.
Proof. zone_numbers. apply Forall_cons; [made_by CFloat|]. apply Forall_cons; [made_by CDouble|]. apply Forall_nil. Qed.
Example file_ex_wf : file_wf file_ex.
Proof.
  unfold file_wf. split; [unfold in_int; cbn; lia|]. split; [cbn; lia|]. split; [cbn; lia|].
  apply Forall_cons; [apply zone1_wf|]. apply Forall_cons; [apply zone2_wf|]. apply Forall_nil.
Qed.
Example C34_ex : plt_size file_ex < 2 ^ 63 /\ Forall no_nul (texts_of file_ex) /\
  exists s g, write_plt env_ex file_ex = Ret (s, g) tt.
Proof.
  split; [vm_compute; reflexivity|]. split.
  - repeat constructor; intros H; cbn in H; intuition discriminate.
  - eexists _, _. vm_compute. reflexivity.
Qed.

(** ** C35: the log *)

(** The log has the zones of the description in their order; for each variable its entry has
    the type, the width, the recorded extrema and the position where the block lies in the file; sizes are
    the sizes of the file and of the zones' data. *)
Theorem C35_log e f s g u :
  file_wf f -> plt_size f < 2 ^ 63 ->
  write_plt e f = Ret (s, g) u ->
  exists b p, disk s = Some b /\ shows f p /\ (Forall no_nul (texts_of f) -> parse_plt b = Some p) /\
    Forall2 (logs_zone b) (p_zones p) (fl_zones g) /\ map zl_zone (fl_zones g) = f_zones f /\
    map zl_size (fl_zones g) = map data_size (f_zones f) /\
    fl_size g = Z.of_nat (length b) /\ Z.of_nat (length b) = plt_size f /\
    fl_file g = f /\ fl_begin g = e_begin e /\ fl_end g = e_end e /\ fl_using g = e_using e /\ fl_error g = ""%string.
Proof. exact (@plt_log e f s g u). Qed.
Print Assumptions C35_log.

Example C35_ex : exists s g, write_plt env_ex file_ex = Ret (s, g) tt /\
  map (fun z => map dl_pt (zl_data z)) (fl_zones g) = [[392; 400]; [460; 468]] /\ fl_size g = 484.
Proof. eexists _, _. split; [vm_compute; reflexivity|]. vm_compute. auto. Qed.

(** ** C40: the printed texts *)

(** After a run each of the three texts has exactly one reserved place for each zone, and printing puts the
    zone's text there. *)
Theorem C40_texts e f s g u depth :
  file_wf f -> plt_size f < 2 ^ 63 -> write_plt e f = Ret (s, g) u ->
  map zl_zone (fl_zones g) = f_zones f /\
  printed 0 0 zl_echo (fl_zones g) (length (f_zones f)) (fl_echo g) (write_echo g) /\
  printed depth (depth + 2) zl_json (fl_zones g) (length (f_zones f)) (fl_json g) (write_json g depth) /\
  printed depth (depth + 2) zl_xml (fl_zones g) (length (f_zones f)) (fl_xml g) (write_xml g depth).
Proof. exact (@texts_printed e f s g u depth). Qed.
Print Assumptions C40_texts.

(** After an exception the texts can be printed too: no place is reserved for a zone the log does not have. *)
Theorem C40_after_exception e f s g x depth :
  file_wf f -> plt_size f < 2 ^ 63 -> write_plt e f = Thr (s, g) x ->
  (exists n, (n <= length (fl_zones g))%nat /\ printed 0 0 zl_echo (fl_zones g) n (fl_echo g) (write_echo g)) /\
  write_json g depth = Ok ""%string /\ write_xml g depth = Ok ""%string.
Proof. exact (@texts_after_exception e f s g x depth). Qed.
Print Assumptions C40_after_exception.

Example C40_ex : exists s g, write_plt env_ex file_ex = Ret (s, g) tt /\
  fl_echo g = ["[2026-11-17 09:00:00] #### creat file ./out.plt ####"; "     VAR: <x> <y>";
               "-------------------------------------"; "--   write zone 1: low   --"; "#ZONE#";
               "--   write zone 2: high   --"; "#ZONE#"; "--   write zone 2: high   --";
               "     file size: 0.0 MB"; "     using time : 0.25000 s";
               "[2026-11-17 09:00:01] #### creat file ./out.plt ####"]%string.
Proof. eexists _, _. split; [vm_compute; reflexivity|]. vm_compute. reflexivity. Qed.

(** ** C41: the fixed buffers *)

(** For an accepted description that can be written, the texts decide: if they fit the function returns,
    if one does not the behaviour is undefined. *)
Theorem C41_limits e f :
  file_wf f -> plt_size f < 2 ^ 63 -> ~ refused f -> e_open e = true -> (forall i k, ~ starved e f i k) -> calm e ->
  (short f -> exists s g, write_plt e f = Ret (s, g) tt) /\ (~ short f -> write_plt e f = Undef).
Proof. exact (@write_defined e f). Qed.
Print Assumptions C41_limits.

Definition long_title : string := String.concat "" (repeat "0123456789"%string 19).
Definition file_long : tfile :=
  mkFile "." "out" long_title ["x"; "y"]%string 0 [] [zone1; zone2] 0.
Example C41_ex : file_wf file_ex /\ plt_size file_ex < 2 ^ 63 /\ ~ refused file_ex /\ e_open env_ex = true /\
  (forall i k, ~ starved env_ex file_ex i k) /\ calm env_ex /\ short file_ex.
Proof.
  split; [apply file_ex_wf|]. split; [vm_compute; reflexivity|]. split.
  { unfold refused. intros [H|[H|(z & Hin & H)]]; try discriminate.
    cbn in Hin. unfold refused_zone, some_dir, dir_bad in H.
    destruct Hin as [<-|[<-|[]]]; (destruct H as [H|[H|[H|(d & Hd & H)]]];
      [cbn in H; lia|discriminate|cbn in H; congruence|cbn in Hd; intuition (subst; discriminate)]). }
  split; [reflexivity|]. split; [intros i k (z & _ & _ & _ & H); discriminate|]. split.
  { split; [vm_compute; reflexivity|]. intros v E. vm_compute in E. injection E as <-. vm_compute. reflexivity. }
  unfold short. split; [vm_compute; reflexivity|]. split; [vm_compute; reflexivity|]. split; [vm_compute; reflexivity|].
  split; [|split].
  - intros [|[|[|k]]] v E; try discriminate; injection E as <-; vm_compute; reflexivity.
  - repeat constructor.
  - intros [|[|[|i]]] z E; try discriminate; injection E as <-; (split; [vm_compute; reflexivity|]); (split; [repeat constructor|]);
      intros _; vm_compute; reflexivity.
Qed.
(** A title of 190 characters is too long. *)
Example C41_ex_long : ~ short file_long /\ write_plt env_ex file_long = Undef.
Proof. split; [|vm_compute; reflexivity]. intros (_ & _ & H & _). revert H. vm_compute. discriminate. Qed.

(** ** C42: what is left behind *)

(** A refused description, or a file that cannot be opened: an exception, whose text is kept in the
    log, and nothing on disk. *)
Theorem C42_refused e f :
  file_wf f -> refused f \/ e_open e = false -> plt_size f < 2 ^ 63 ->
  exists s g m, write_plt e f = Thr (s, g) (ETec m) /\ fl_error g = m /\ disk s = None /\ opened s = false /\ live s = 0.
Proof. exact (@write_refused e f). Qed.
Print Assumptions C42_refused.

(** After a normal run the file is closed and every temporary buffer is freed. *)
Theorem C42_clean e f s g u : file_wf f -> plt_size f < 2 ^ 63 -> write_plt e f = Ret (s, g) u -> opened s = false /\ live s = 0.
Proof. exact (@write_clean e f s g u). Qed.
Print Assumptions C42_clean.

(** If the buffer of variable [k] of some zone is the first that cannot be allocated, the exception leaves
    the file open, the [k] buffers made before for that zone allocated, and the log's Error
    empty. *)
Theorem C42_leak e f i k :
  file_wf f -> plt_size f < 2 ^ 63 -> ~ refused f -> e_open e = true -> short f -> calm e -> first_starved e f i k ->
  exists s g m, write_plt e f = Thr (s, g) (ETec m) /\
    (exists b, disk s = Some b) /\ opened s = true /\ live s = Z.of_nat k /\ fl_error g = ""%string.
Proof. exact (@write_starved e f i k). Qed.
Print Assumptions C42_leak.

Definition env_poor : env :=
  mkEnv true (fun i k => (i =? 0)%nat && (k =? 1)%nat) "2026-11-17 09:00:00" "2026-11-17 09:00:01" 4598175219545276416.
Example C42_ex_refused : file_wf (mkFile "." "out" "t" ["x"]%string 0 [] [zone1] 0) /\
  refused (mkFile "." "out" "t" ["x"]%string 0 [] [zone1] 0) /\
  plt_size (mkFile "." "out" "t" ["x"]%string 0 [] [zone1] 0) < 2 ^ 63.
Proof.
  split; [|split; [|vm_compute; reflexivity]].
  - split; [unfold in_int; cbn; lia|]. split; [cbn; lia|].
    split; [cbn; lia|]. apply Forall_cons; [apply zone1_wf|apply Forall_nil].
  - right. right. exists zone1. split; [left; reflexivity|]. right. right. left. cbn. discriminate.
Qed.
Example C42_ex_leak : first_starved env_poor file_ex 0 1 /\
  exists s g m, write_plt env_poor file_ex = Thr (s, g) (ETec m) /\ opened s = true /\ live s = 1.
Proof.
  split; [split|].
  - exists zone1. split; [reflexivity|]. split; [|split; [cbn; lia|reflexivity]].
    unfold whole, all_dirs. cbn. lia.
  - intros i' k' (z & _ & _ & _ & H). cbn in H. apply andb_true_iff in H. destruct H as [H1 H2].
    apply Nat.eqb_eq in H1, H2. subst. right. split; [reflexivity|lia].
  - eexists _, _, _. split; [vm_compute; reflexivity|]. split; reflexivity.
Qed.
