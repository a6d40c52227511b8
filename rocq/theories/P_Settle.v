(** Property C69: logs read and written again do not drift.

    Reading guide (see also P_Xml.v and P_Doc.v).  [rewritten g k] (Spec_Settle.v): [k] comes from [g] by one or
    more rounds of write_xml and read_xml.  [settles g h]: every such [k] is [h], it says the same as [g], and
    write_xml and write_json make the same bytes of both.  [fmt_le] and [fmt_lf 5] are [%le] and [%.5lf] of the
    double with these bits, [scan_double] is sscanf's [%lf]. *)

From Coq Require Import ZArith Ascii String List Bool Lia.
From Verif Require Import Base M_Bytes M_TecZone M_TecFile Spec_Tec Spec_Plt Spec_Aux Spec_Xml Spec_Doc Spec_Settle P_TecFile P_Xml P_Doc
  L_Near M_Scan M_Xml M_ReadXml L_Settle L_Rewrite.
Import ListNotations.
Open Scope list_scope.
Open Scope Z_scope.

(** C69: a double printed with seven digits, scanned and printed again gives the same characters; so do times
    below 2^35 seconds printed with five decimals. *)
Theorem C69_number b y : scan_double (fmt_le b) = Some y -> fmt_le y = fmt_le b.
Proof. exact (le_again b y). Qed.
Print Assumptions C69_number.

Theorem C69_seconds b y : millennium b -> scan_double (fmt_lf 5 b) = Some y -> fmt_lf 5 y = fmt_lf 5 b.
Proof. exact (lf_again b y). Qed.
Print Assumptions C69_seconds.

(** The logs of files written by write_plt. *)
Theorem C69_written e f s g u :
  file_wf f -> plt_size f < 2 ^ 63 -> write_plt e f = Ret (s, g) u -> calm e -> millennium (e_using e) -> xml_safe f -> plain_text (e_begin e) ->
  exists h, settles g h.
Proof. exact (written_settles e f s g u). Qed.
Print Assumptions C69_written.

(** Logs read from any document. *)
Theorem C69_read n g : read_xml n = Ok g -> xml_safe (described g) -> plain_text (fl_begin g) -> millennium (fl_using g) ->
  Forall (fun z => Forall (fun d => dl_size d <= INT_MAX) (zl_data z)) (fl_zones g) -> exists h, settles g h.
Proof. exact (read_settles n g). Qed.
Print Assumptions C69_read.

(** ** Examples *)

(** 1/3 prints as 3.333333e-01, scans as another double, which prints the same. *)
Example C69_third : exists y, scan_double (fmt_le third) = Some y /\ y <> third /\ fmt_le y = fmt_le third.
Proof.
  destruct (scan_double (fmt_le third)) as [y|] eqn:E; [|exfalso; vm_compute in E; discriminate E]. exists y. split; [reflexivity|].
  split; [|exact (C69_number _ _ E)]. vm_compute in E. injection E as <-. vm_compute. congruence.
Qed.

Definition timed_not (time : Z) (r : res file_log) : bool :=
  match r with Ok g => negb (forallb (fun z => z_time (zl_zone z) =? time) (fl_zones g)) | _ => false end.
(** A file with the time 1/3: the log read once differs from the log written, but from then on nothing changes. *)
Example C69_ex : exists s g h, write_plt env_ex (xml_file_ex "my title" "u" third) = Ret (s, g) tt /\ settles g h /\
  exists z, In z (fl_zones h) /\ z_time (zl_zone z) <> third.
Proof.
  destruct (again_true (xml_file_ex "my title" "u" third) (timed_not third) ltac:(vm_compute; reflexivity)) as (s & g & t & r & E1 & E2 & E & E3).
  destruct C43_ex as (X1 & X2 & _ & X4 & X5 & X6).
  destruct (C69_written _ _ _ _ _ X1 X2 E1 X4) as (h & H); [|exact X5|exact X6|].
  - intros v Hv. vm_compute in Hv. injection Hv as <-. vm_compute. reflexivity.
  - exists s, g, h. split; [exact E1|]. split; [exact H|]. destruct r as [k|x|]; try discriminate E3.
    assert (k = h). { apply H. apply rewritten_once. eexists _, _, _, _. split; [exact E2|]. split; [|exact E]. reflexivity. }
    subst k. unfold timed_not in E3. apply negb_true_iff in E3. clear - E3. induction (fl_zones h) as [|z l IH]; [discriminate E3|].
    cbn [forallb] in E3. apply andb_false_iff in E3. destruct E3 as [E3|E3]; [exists z; split; [left; reflexivity|now apply Z.eqb_neq]|].
    destruct (IH E3) as (z' & Hz & N). exists z'. split; [right; exact Hz|exact N].
Qed.

(** The document of C68_ex, which write_xml would never write. *)
Example C69_document : exists g h, dx_read dx_good = Ok g /\ described g = dx_says /\ settles g h.
Proof.
  pose proof dx_found as F. destruct (dx_read dx_good) as [g|e|] eqn:R; try discriminate F. assert (FV : dx_view g = (dx_says, "noon"%string, 0, [[]])) by congruence. clear F.
  pose proof (f_equal (fun v => fst (fst (fst v))) FV) as F1. pose proof (f_equal (fun v => snd (fst (fst v))) FV) as F2.
  pose proof (f_equal (fun v => snd (fst v)) FV) as F3. pose proof (f_equal snd FV) as F4. unfold dx_view in F1, F2, F3, F4. cbn [fst snd] in F1, F2, F3, F4. clear FV.
  destruct (C68_throws (fun _ => Some dx_good) "a.xml") as [[E _]|[(b & e & _ & _ & E)|[(b & ks & _ & _ & _ & E)|(b & ks & n & _ & _ & _ & E & _)]]]; try discriminate E;
    unfold dx_read in R; rewrite R in E; try discriminate E. symmetry in E.
  destruct (C69_read n g E) as (h & H).
  - rewrite F1. split.
    + split; [char_list|]. split; [char_list|]. split; [char_list|]. split; [constructor|]. split.
      * split; [apply in_order_cons; [|repeat constructor]; apply Forall_cons; [|constructor]; apply L_Aux.str_lt_before; reflexivity|].
        repeat (apply Forall_cons; [split; [|char_list]; match goal with |- xml_name (fst (String ?c _, _)) => exists c, ""%string end; split; [reflexivity|]; split; [vm_compute; intuition congruence|char_list]|]). constructor.
      * apply Forall_cons; [|constructor]. split; [char_list|]. split; constructor.
    + unfold contents. cbn. repeat (apply Forall_cons; [not_blank|]). constructor.
  - rewrite F2. split; [char_list|not_blank].
  - rewrite F3. intros v Hv. vm_compute in Hv. injection Hv as <-. vm_compute. reflexivity.
  - destruct (fl_zones g) as [|z [|z2 zs]]; try discriminate F4. injection F4 as F4. apply Forall_cons; [rewrite F4; constructor|constructor].
  - exists g, h. auto.
Qed.
