(** Property C58: what write_plt prints on the screen.

    Reading guide (Spec_Screen.v; see also P_TecFile.v).  [write_plt_on echo e f] is write_plt(echo); its state has
    the printed text in front of the file system and the log.  [write_plt e f] leaves the screen out.
    [all_lines gap e f]: the lines the flags of Echo_Mode ask for, in the order of the file; [gap] is what stands
    between the brackets of Begin and End.  [lines_until gap e f i]: those up to the head of zone [i].
    [printed_lines]: each line followed by a line end.  [write_echo g] is the text of TEC_FILE_LOG::write_echo. *)

From Coq Require Import ZArith Ascii String List Bool Lia.
From Verif Require Import Base M_Bytes M_TecZone M_TecFile M_Screen Spec_Loop Spec_Tec Spec_Plt Spec_Screen P_TecFile L_ScreenLog.
Import ListNotations.
Open Scope list_scope.
Open Scope Z_scope.

(** The argument of write_plt changes nothing but the screen: the same outcome, the same file, the same log,
    whether it is set or not; and nothing is printed unless it is set. *)
Theorem C58_flag e f echo : file_wf f -> plt_size f < 2 ^ 63 ->
  match write_plt e f with
  | Ret s u => exists w, write_plt_on echo e f = Ret (w, s) u /\ (echo = false -> w = ""%string)
  | Thr s x => exists w, write_plt_on echo e f = Thr (w, s) x /\ (echo = false -> w = ""%string)
  | Undef => write_plt_on echo e f = Undef
  end.
Proof. intros W Z. exact (screen_flag e f W Z echo). Qed.
Print Assumptions C58_flag.

(** A finished run has printed the lines asked for, and the log's echo has them too, with one blank instead of three
    before "End". *)
Theorem C58_screen e f w s g u : file_wf f -> plt_size f < 2 ^ 63 -> no_nuls e f ->
  write_plt_on true e f = Ret (w, (s, g)) u ->
  w = printed_lines (all_lines "   " e f) /\ write_echo g = Ok (printed_lines (all_lines " " e f)).
Proof.
  intros W Z N E. pose proof (screen_flag e f W Z true) as H. destruct (write_plt e f) as [[s' g'] u'|[s' g'] x|] eqn:E1.
  - destruct H as (w' & H & _). rewrite E in H. injection H as _ <- <- <-.
    destruct (screen_ret e f W Z N s g u E1) as (A & B). rewrite E in A. injection A as ->. auto.
  - destruct H as (w' & H & _). rewrite E in H. discriminate H.
  - rewrite E in H. discriminate H.
Qed.
Print Assumptions C58_screen.

(** The screen and write_echo agree exactly if no zone asks for Begin and End (flag 6). *)
Theorem C58_same e f w s g u : file_wf f -> plt_size f < 2 ^ 63 -> no_nuls e f ->
  write_plt_on true e f = Ret (w, (s, g)) u ->
  (write_echo g = Ok w <-> Forall (fun z => Z.testbit (z_echo z) 6 = false) (f_zones f)).
Proof.
  intros W Z N E. destruct (C58_screen e f w s g u W Z N E) as (-> & ->). rewrite <- (same_iff e f).
  split; [intros H; injection H as ->; reflexivity|intros ->; reflexivity].
Qed.
Print Assumptions C58_same.

(** A refused description, or a file that cannot be opened: nothing is printed.  Out of memory: the lines up to the head of the
    zone whose buffer could not be made. *)
Theorem C58_exception e f w s g x : file_wf f -> plt_size f < 2 ^ 63 -> no_nuls e f ->
  write_plt_on true e f = Thr (w, (s, g)) x ->
  (refused f \/ e_open e = false) /\ w = ""%string /\ write_echo g = Ok ""%string \/
  ~ refused f /\ e_open e = true /\ exists i k, first_starved e f i k /\
    w = printed_lines (lines_until "   " e f i) /\ write_echo g = Ok (printed_lines (lines_until " " e f i)).
Proof.
  intros W Z N E. pose proof (screen_flag e f W Z true) as H. destruct (write_plt e f) as [[s' g'] u'|[s' g'] x'|] eqn:E1.
  - destruct H as (w' & H & _). rewrite E in H. discriminate H.
  - destruct H as (w' & H & _). rewrite E in H. injection H as _ <- <- <-.
    destruct (screen_thr e f W Z N s g x E1) as [(A & B & D)|(A & B & i & k & S & D & F)]; [left|right].
    + rewrite E in B. injection B as ->. auto.
    + rewrite E in D. injection D as ->. split; [exact A|]. split; [exact B|]. exists i, k. auto.
  - rewrite E in H. discriminate H.
Qed.
Print Assumptions C58_exception.

Example file_ex_nuls : no_nuls env_ex file_ex /\ no_nuls env_poor file_ex.
Proof.
  assert (H : Forall no_nul (texts_of file_ex)) by (repeat constructor; intros H; cbn in H; intuition discriminate).
  assert (H1 : no_nul (f_path file_ex) /\ no_nul (f_name file_ex) /\ no_nul (e_begin env_ex) /\ no_nul (e_end env_ex))
    by (repeat split; intros H1; cbn in H1; intuition discriminate).
  destruct H1 as (A & B & C & D). split; unfold no_nuls; split; auto.
Qed.

(** A zone with Echo_Mode 9 and one with all flags: the screen, line by line. *)
Example C58_ex : file_wf file_ex /\ plt_size file_ex < 2 ^ 63 /\ no_nuls env_ex file_ex /\
  match write_plt_on true env_ex file_ex with Ret (w, _) _ => w | _ => ""%string end = printed_lines
    ["[2026-11-17 09:00:00] #### creat file ./out.plt ####"; "     VAR: <x> <y>"; "-------------------------------------";
     "--   write zone 1: low   --"; "     Dim = 2   Real_Max = [ 2 2 ]";
     "--   write zone 2: high   --"; "     Dim = 1   Real_Max = [ 2 ]"; "     Org_Max = [ 2 1 1 ]"; "     Skip = [ 1 1 1 ]";
     "     Begin = [ 0 0 0 ]   End = [ 0 0 0 ]"; "     write variables: <x> <y>"; "     zone size: 0.0MB";
     "--   write zone 2: high   --"; "     file size: 0.0 MB"; "     using time : 0.25000 s";
     "[2026-11-17 09:00:01] #### creat file ./out.plt ####"]%string.
Proof.
  split; [exact file_ex_wf|]. split; [vm_compute; reflexivity|]. split; [apply file_ex_nuls|]. vm_compute. reflexivity.
Qed.
(** The second variable of the first zone cannot be stored. *)
Example C58_ex_poor : file_wf file_ex /\ no_nuls env_poor file_ex /\
  match write_plt_on true env_poor file_ex with Thr (w, _) _ => w | _ => ""%string end = printed_lines
    ["[2026-11-17 09:00:00] #### creat file ./out.plt ####"; "     VAR: <x> <y>"; "-------------------------------------";
     "--   write zone 1: low   --"]%string.
Proof. split; [exact file_ex_wf|]. split; [apply file_ex_nuls|]. vm_compute. reflexivity. Qed.

(** So the two texts are not the same in general. *)
Theorem C58_same_refuted : exists e f w s g u, file_wf f /\ plt_size f < 2 ^ 63 /\ no_nuls e f /\
  write_plt_on true e f = Ret (w, (s, g)) u /\ write_echo g <> Ok w.
Proof.
  assert (E : exists w s g u, write_plt_on true env_ex file_ex = Ret (w, (s, g)) u).
  { pose proof (screen_flag env_ex file_ex file_ex_wf ltac:(vm_compute; reflexivity) true) as H.
    assert (H1 : match write_plt env_ex file_ex with Ret _ _ => true | _ => false end = true) by (vm_compute; reflexivity).
    destruct (write_plt env_ex file_ex) as [[s g] u|? ?|]; try discriminate H1. destruct H as (w & H & _). exists w, s, g, u. exact H. }
  destruct E as (w & s & g & u & E). exists env_ex, file_ex, w, s, g, u.
  assert (Z : plt_size file_ex < 2 ^ 63) by (vm_compute; reflexivity).
  split; [exact file_ex_wf|]. split; [exact Z|]. split; [apply file_ex_nuls|]. split; [exact E|].
  intros C. apply (C58_same _ _ _ _ _ _ file_ex_wf Z (proj1 file_ex_nuls) E) in C.
  apply Forall_inv_tail, Forall_inv in C. discriminate C.
Qed.
Print Assumptions C58_same_refuted.

(** The line "Dim = n   Real_Max = [...]" lists the first n sizes, not the n sizes other than 1: a zone of size 1 x 5 x 1 is reported as
    "Dim = 1   Real_Max = [ 1 ]". *)
Definition zone_thin : zone :=
  mkZone "thin" (-1) 0 (mk3 1 5 1) (mk3 1 1 1) (mk3 0 0 0) (mk3 0 0 0) [] [mkData TEC_BYTE 1 (Some (map z2b [1; 2; 3; 4; 5]))] 8.
Theorem C58_dim_refuted : exists e f z w s g u, file_wf f /\ plt_size f < 2 ^ 63 /\ f_zones f = [z] /\ samples_of z = [1; 5; 1] /\
  write_plt_on true e f = Ret (w, (s, g)) u /\ w = printed_lines ["     Dim = 1   Real_Max = [ 1 ]"%string].
Proof.
  set (f := mkFile "." "thin" "t" ["x"%string] 0 [] [zone_thin] 0).
  assert (W : file_wf f).
  { unfold file_wf. split; [unfold in_int; cbn; lia|]. split; [cbn; lia|]. split; [cbn; lia|].
    apply Forall_cons; [|apply Forall_nil]. zone_numbers. apply Forall_cons; [made_by CSChar|apply Forall_nil]. }
  assert (Z : plt_size f < 2 ^ 63) by (vm_compute; reflexivity).
  assert (N : no_nuls env_ex f).
  { unfold no_nuls. split; [|split; [|split; [|split]]]; try (intros H; cbn in H; intuition discriminate).
    repeat constructor; intros H; cbn in H; intuition discriminate. }
  pose proof (screen_flag env_ex f W Z true) as H.
  assert (H1 : match write_plt env_ex f with Ret _ _ => true | _ => false end = true) by (vm_compute; reflexivity).
  destruct (write_plt env_ex f) as [[s g] u|? ?|]; try discriminate H1. destruct H as (w & H & _).
  exists env_ex, f, zone_thin, w, s, g, u. split; [exact W|]. split; [exact Z|]. split; [reflexivity|]. split; [vm_compute; reflexivity|].
  split; [exact H|]. destruct (C58_screen _ _ _ _ _ _ W Z N H) as (-> & _). vm_compute. reflexivity.
Qed.
Print Assumptions C58_dim_refuted.
