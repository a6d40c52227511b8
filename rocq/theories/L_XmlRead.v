(** read_plt with a log read from XML. *)

From Coq Require Import ZArith Ascii String List Bool Lia.
From Verif Require Import Base M_Flags M_Loop M_RS1 M_RS2 M_RS3 M_Bytes M_TecZone M_TecFile Spec_Tec Spec_Plt Spec_Aux Spec_Xml L_ReadLog M_ReadXml L_XmlLog
  M_Heap M_PD1 M_PD2 M_PD3 M_World M_Read Spec Spec_Loop Spec_Array Spec_Hist Spec_Reach Spec_Read L_ReadCall L_Read L_Round.
Import ListNotations.
Open Scope list_scope.
Open Scope Z_scope.

Section Same.
Context {V : Type}.
Variable chk : bool.
Variables of_float of_double : bytes -> option V.

(** What read_plt looks at in a zone of the log. *)
Lemma same_n_file z z' D d : same_zone z z' -> n_file z' D d = n_file z D d.
Proof. intros (_ & _ & _ & _ & _ & _ & _ & _ & _ & _ & E & _). unfold n_file. rewrite E. reflexivity. Qed.

Lemma same_read_var g g' z z' fs root name cnt loop : same_log g g' -> same_zone z z' ->
  forall st, read_var of_float of_double fs root g' z' name cnt loop st = read_var of_float of_double fs root g z name cnt loop st.
Proof.
  intros (_ & En & _ & Ev & _) (_ & _ & _ & _ & _ & _ & _ & _ & _ & _ & _ & HD) st. unfold read_var. rewrite En, Ev. cbv zeta.
  destruct (Nat.eqb _ _); [reflexivity|]. set (vv := find_var _ _).
  assert (H : match nth_error (zl_data z') vv, nth_error (zl_data z) vv with
    | Some d', Some d => same_data d d' | None, None => True | _, _ => False end).
  { revert HD. generalize (zl_data z) (zl_data z'). clearbody vv. clear. revert vv. intros vv l l' H. revert vv.
    induction H as [|a b l l' H1 H2 IH]; intros [|vv]; cbn [nth_error]; [exact I|exact I|exact H1|apply IH]. }
  destruct (nth_error (zl_data z') vv) as [d'|], (nth_error (zl_data z) vv) as [d|]; try contradiction; [|reflexivity].
  destruct H as (E1 & E2 & E3 & _). unfold bind, lift. rewrite E1, E2, E3. reflexivity.
Qed.

Lemma same_log_zone g g' i : same_log g g' ->
  match log_zone g' i, log_zone g i with
  | Ok z', Ok z => same_zone z z' | Err e', Err e => e' = e | UB, UB => True | _, _ => False end.
Proof.
  intros (_ & _ & _ & _ & _ & _ & _ & _ & H). unfold log_zone. rewrite (Forall2_len _ _ _ H). destruct (_ <=? i); [reflexivity|].
  revert H. generalize (fl_zones g) (fl_zones g') (Z.to_nat i). clear. intros l l' n H. revert n.
  induction H as [|a b l l' H1 H2 IH]; intros [|n]; cbn [nth_error]; [exact I|exact I|exact H1|apply IH].
Qed.

Theorem same_log_reads g g' k fs root zone name nn o st : same_log g g' ->
  m_read_plt chk of_float of_double k fs root g' zone name nn o st = m_read_plt chk of_float of_double k fs root g zone name nn o st.
Proof.
  intros HG. pose proof (same_log_zone g g' zone HG) as HZ.
  destruct k as [N l0|N l0 l1|N l0 l1 l2], o as [o|o|o]; try reflexivity; cbn [m_read_plt].
  - unfold read_plt1. unfold bind, lift. destruct (check_n chk N nn) as [[]|e|]; [|reflexivity|reflexivity].
    destruct (log_zone g' zone) as [z'|e'|], (log_zone g zone) as [z|e|]; try contradiction; try reflexivity; [|congruence].
    rewrite !(same_n_file z z') by assumption. destruct (n_file z 1 0) as [n0|e|]; [|reflexivity|reflexivity].
    destruct (bad_size n0 _); [reflexivity|]. apply same_read_var; assumption.
  - unfold read_plt2. unfold bind, lift. destruct (check_n chk N nn) as [[]|e|]; [|reflexivity|reflexivity].
    destruct (log_zone g' zone) as [z'|e'|], (log_zone g zone) as [z|e|]; try contradiction; try reflexivity; [|congruence].
    rewrite !(same_n_file z z') by assumption. destruct (n_file z 2 0) as [n0|e|]; [|reflexivity|reflexivity].
    destruct (n_file z 2 1) as [n1|e|]; [|reflexivity|reflexivity].
    destruct (_ || _); [reflexivity|]. apply same_read_var; assumption.
  - unfold read_plt3. unfold bind, lift. destruct (check_n chk N nn) as [[]|e|]; [|reflexivity|reflexivity].
    destruct (log_zone g' zone) as [z'|e'|], (log_zone g zone) as [z|e|]; try contradiction; try reflexivity; [|congruence].
    rewrite !(same_n_file z z') by assumption. destruct (n_file z 3 0) as [n0|e|]; [|reflexivity|reflexivity].
    destruct (n_file z 3 1) as [n1|e|]; [|reflexivity|reflexivity]. destruct (n_file z 3 2) as [n2|e|]; [|reflexivity|reflexivity].
    destruct (_ || _); [reflexivity|]. apply same_read_var; assumption.
Qed.
End Same.

Lemma disk_round_trip {V1 V2} chk (of_float of_double : bytes -> option V2)
    F1 h1 (w1 : world V1) aw1 a1 k1 o1 n1 F2 h2 (w2 : world V2) aw2 a2 k2 o2 n2
    wd dec (enc : V1 -> bytes) (cast : V1 -> V2) mem t d e f s g u zi z name vv fs root live depth xml log :
  after F1 h1 w1 aw1 -> healthy aw1 a1 -> find w1 a1 = Some (k1, o1) -> o_data o1 <> Null -> 0 <= n1 < k_N k1 ->
  after F2 h2 w2 aw2 -> healthy aw2 a2 -> find w2 a2 = Some (k2, o2) -> 0 <= n2 < k_N k2 ->
  length (k_locs k2) = length (k_locs k1) ->
  Forall2 size_in (m_size o2) (inner (k_locs k1) (m_size o1)) ->
  (t = CFloat /\ wd = 4 /\ dec = of_float \/ t = CDouble /\ wd = 8 /\ dec = of_double) ->
  (forall bs, Z.of_nat (length bs) = wd -> dec bs <> None) -> (forall v, dec (enc v) = Some (cast v)) ->
  image w1 k1 o1 n1 wd enc mem -> M_TecZone.data_of t (Some mem) = Ok d ->
  file_wf f -> plt_size f < 2 ^ 63 -> 0 <= zi -> nth_error (f_zones f) (Z.to_nat zi) = Some z ->
  takes_interior (k_locs k1) (m_size o1) z ->
  first_at (f_vars f) name vv -> nth_error (z_data z) vv = Some d ->
  write_plt e f = Ret (s, g) u -> F2 (tick (heap w2)) = false ->
  calm e -> xml_safe f -> plain_text (e_begin e) ->
  fs (plt_path root g) = disk s -> xml_file g depth = Ok xml -> fs (c_str log) = Some (list_ascii_of_string xml) ->
  exists g' w2' val, read_log fs log = Ok g' /\
    m_read_plt chk of_float of_double k2 fs root g' zi name n2 o2 (heap w2, live) = Ret (heap w2', live) tt /\
    overwritten aw2 w2 w2' k2 a2 o2 n2 (inner (k_locs k1) (m_size o1)) val /\
    forall q v, in_box (corner (inner (k_locs k1) (m_size o1))) q -> reads w1 k1 o1 n1 q (Some v) -> val q = Some (cast v).
Proof.
  intros A1 H1 Hf1 Hn1 Hc1 A2 H2 Hf2 Hc2 HK HS Ht Hdec Hed Himg Hd Hw Hps Hzi Hz Htk Hv Hdv Ew Hmem Hc Hx Hb Hfs Ex Hl.
  destruct (log_round_trip e f s g u depth Hw Hps Ew Hc Hx Hb) as (x & g' & Ex' & Hg & HR).
  assert (x = xml) by congruence. subst x. specialize (HR fs log Hl).
  destruct (round_trip chk of_float of_double F1 h1 w1 aw1 a1 k1 o1 n1 F2 h2 w2 aw2 a2 k2 o2 n2 wd dec enc cast mem t d e f s g u zi z name vv fs root live
    A1 H1 Hf1 Hn1 Hc1 A2 H2 Hf2 Hc2 HK HS Ht Hdec Hed Himg Hd Hw Hps Hzi Hz Htk Hv Hdv Ew Hfs Hmem) as (w2' & val & E & Hov & Hval).
  exists g', w2', val. split; [exact HR|]. split; [rewrite <- E; apply same_log_reads, Hg|]. auto.
Qed.
