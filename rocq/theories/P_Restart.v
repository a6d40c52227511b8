(** Properties C53 and C54: a program that goes on with the data of another one, and zones described by arrays.

    Reading guide (see also P_Read.v and P_Xml.v).  [after F h w aw] says that the legal program [h] led to the
    world [w]; [step true w c] makes the call [c] in that world, with range checks.  [image] relates the first
    program's array to the bytes at [data_pt(n)]; [takes_interior] says that the zone takes the interior of the array;
    [disturbs c a n s] that the call [c] may change component [n] of slot [s] of array [a]. *)

From Coq Require Import ZArith Ascii String List Bool Lia.
From Verif Require Import Base M_Flags M_Bytes M_TecZone M_TecFile Spec_Tec Spec_Plt Spec_Aux Spec_Xml P_TecFile
  M_Loop M_RS1 M_RS2 M_RS3 M_Heap M_PD1 M_PD2 M_PD3 M_World M_Read M_Describe
  Spec Spec_Loop Spec_Array Spec_Hist Spec_Reach Spec_Read Spec_Describe L_Plt L_ReadLog L_ReadCall L_Read L_Round L_Access L_Life P_Access P_Read
  L_Aux M_ReadXml L_XmlLog L_XmlRead P_Xml L_Restart L_Describe.
Import ListNotations.
Open Scope list_scope.
Open Scope Z_scope.

(** ** C53: checkpoint and restart *)

(** The program [h1] wrote the interior of component [n1] of array [a1] as variable [name] of zone [zi], and the
    log as XML.  Another program [h2] with a big enough array [a2] reads the log, loads the variable into
    component [n2] - this is legal - and goes on with [h3], which does not touch the slot.  What operator()
    would have given at the end of the first program, it gives at the end of the second. *)
Theorem C53_restart {V1 V2} (of_float of_double : bytes -> option V2)
    F1 h1 (w1 : world V1) aw1 a1 k1 o1 n1 F2 h2 (w2 : world V2) aw2 a2 k2 o2 n2
    wd dec (enc : V1 -> bytes) (cast : V1 -> V2) mem t d e f s g u zi z name vv fs root depth xml log :
  after F1 h1 w1 aw1 -> healthy aw1 a1 -> find w1 a1 = Some (k1, o1) -> o_data o1 <> Null -> 0 <= n1 < k_N k1 ->
  after F2 h2 w2 aw2 -> healthy aw2 a2 -> find w2 a2 = Some (k2, o2) -> 0 <= n2 < k_N k2 ->
  length (k_locs k2) = length (k_locs k1) ->
  Forall2 size_in (m_size o2) (inner (k_locs k1) (m_size o1)) ->
  (t = CFloat /\ wd = 4 /\ dec = of_float \/ t = CDouble /\ wd = 8 /\ dec = of_double) ->
  (forall bs, Z.of_nat (length bs) = wd -> dec bs <> None) -> (forall v, dec (enc v) = Some (cast v)) ->
  image w1 k1 o1 n1 wd enc mem -> M_TecZone.data_of t (Some mem) = Ok d ->
  file_wf f -> plt_size f < 2 ^ 63 -> in_uint zi -> nth_error (f_zones f) (Z.to_nat zi) = Some z ->
  takes_interior (k_locs k1) (m_size o1) z ->
  first_at (f_vars f) name vv -> nth_error (z_data z) vv = Some d ->
  write_plt e f = Ret (s, g) u -> F2 (tick (heap w2)) = false ->
  calm e -> xml_safe f -> plain_text (e_begin e) ->
  fs (plt_path root g) = disk s -> xml_file g depth = Ok xml -> fs (c_str log) = Some (list_ascii_of_string xml) ->
  exists g', read_log fs log = Ok g' /\
    legal aw2 (ReadPlt a2 of_float of_double fs root g' zi name n2) /\
    forall h3 q1 fl1 w v q2 fl2,
      legal aw1 (Read a1 n1 q1 fl1) -> step true w1 (Read a1 n1 q1 fl1) = Some (w, RVal (Some v)) ->
      slot_of q2 fl2 = slot_of q1 fl1 -> in_box (corner (inner (k_locs k1) (m_size o1))) (slot_of q1 fl1) ->
      flag_error 0 (k_locs k2) fl2 = None ->
      legal_run F2 a_start (h2 ++ ReadPlt a2 of_float of_double fs root g' zi name n2 :: h3 ++ [Read a2 n2 q2 fl2]) ->
      (forall c, In c h3 -> disturbs c a2 n2 (slot_of q2 fl2) = false) ->
      exists w' rs,
        exec true (start F2) (h2 ++ ReadPlt a2 of_float of_double fs root g' zi name n2 :: h3 ++ [Read a2 n2 q2 fl2]) =
          Some (w', rs ++ [RVal (Some (cast v))]).
Proof.
  exact (restart of_float of_double F1 h1 w1 aw1 a1 k1 o1 n1 F2 h2 w2 aw2 a2 k2 o2 n2
    wd dec enc cast mem t d e f s g u zi z name vv fs root depth xml log).
Qed.
Print Assumptions C53_restart.

(** ** C54: a zone described by an array *)

(** For every array of every reachable state, with and without range checks. *)
Theorem C54_described {V} F h (w : world V) aw a k o chk z : after F h w aw -> find w a = Some (k, o) ->
  exists z', describe chk o z = Ok z' /\ described (m_size o) z z'.
Proof. exact (describe_reached F h w aw a k o chk z). Qed.
Print Assumptions C54_described.

(** A new zone described by an array takes its interior exactly if all dimensions are centre-located. *)
Theorem C54_interior {V} F h (w : world V) aw a k o chk name z : after F h w aw -> find w a = Some (k, o) ->
  describe chk o (new_zone name) = Ok z ->
  (takes_interior (k_locs k) (m_size o) z <-> Forall (fun l => l = center) (k_locs k)).
Proof. exact (describe_interior F h w aw a k o chk name z). Qed.
Print Assumptions C54_interior.

(** ** Examples *)

(** The pair of arrays of C36_ex.  The first program reads 4 at face 1 of cell 1.  The second one reads the log from
    out.xml and the data from out.plt, writes another slot and another component, and reads 4. *)
Definition rs_more : list (op Z) := [Write 1 1 [0; -1] [FC; FC] 6; Write 1 0 [1; 1] [FC; FC] 8].
Definition rs_files (s : M_TecFile.fs) (xml : string) : files := fun p =>
  if String.eqb p "./out.plt" then disk s else if String.eqb p "out.xml" then Some (list_ascii_of_string xml) else None.

Example C53_ex : exists s g g' xml w rs,
  write_plt env_ex rd_file = Ret (s, g) tt /\ xml_file g 0 = Ok xml /\ read_log (rs_files s xml) "out.xml" = Ok g' /\
  step true rd_w (Read 0 0 [1; 0] [FC; FP]) = Some (rd_w, RVal (Some 4)) /\
  exec true (start nofail) (rd_h ++ ReadPlt 1 float_bits float_bits (rs_files s xml) "." g' 0 "u" 1 :: rs_more ++ [Read 1 1 [1; 1] [FC; FC]]) =
    Some (w, rs ++ [RVal (Some 4)]).
Proof.
  destruct rd_out as (s & g & E & Ep). destruct C44_ex as (Hc & Hx & Hb & _).
  assert (Hps : plt_size rd_file < 2 ^ 63) by (vm_compute; reflexivity).
  destruct (C43_log_round_trip env_ex rd_file s g tt 0 rd_file_wf Hps E Hc Hx Hb) as (xml & _ & EX & _ & _).
  assert (HS : Forall2 size_in (m_size (rd_o 1)) (inner (k_locs rd_k1) (m_size (rd_o 0)))) by each.
  assert (Hd : o_data (rd_o 0) <> Null) by (vm_compute; discriminate).
  assert (Hf : first_at (f_vars rd_file) "u" 0) by (split; [reflexivity|intros i Hi; lia]).
  assert (Hed : forall v, float_bits (le 4 v) = Some (v mod 2 ^ 32)) by (intros v; unfold float_bits; now rewrite unle_le).
  assert (Hfs : rs_files s xml (plt_path "." g) = disk s) by now rewrite Ep.
  assert (Htk : takes_interior (k_locs rd_k1) (m_size (rd_o 0)) rd_src) by (rewrite (proj1 rd_sizes); repeat split).
  assert (Hbs : forall bs, Z.of_nat (length bs) = 4 -> float_bits bs <> None) by discriminate.
  assert (N1 : 0 <= 0 < k_N rd_k1) by (cbn; lia). assert (N2 : 0 <= 1 < k_N rd_k2) by (cbn; lia).
  assert (D1 : M_TecZone.data_of CFloat (Some rd_mem) = Ok (mkData TEC_FLOAT 4 (Some rd_mem))) by (vm_compute; reflexivity).
  assert (D2 : nth_error (f_zones rd_file) (Z.to_nat 0) = Some rd_src) by (vm_compute; reflexivity).
  assert (D3 : nth_error (z_data rd_src) 0 = Some (mkData TEC_FLOAT 4 (Some rd_mem))) by (vm_compute; reflexivity).
  assert (D4 : nofail (tick (heap rd_w)) = false) by (unfold nofail; reflexivity).
  assert (D5 : length (k_locs rd_k2) = length (k_locs rd_k1)) by reflexivity.
  assert (D6 : in_uint 0) by (unfold in_uint; lia).
  destruct (C53_restart float_bits float_bits nofail rd_h rd_w rd_aw 0 rd_k1 (rd_o 0) 0
    nofail rd_h rd_w rd_aw 1 rd_k2 (rd_o 1) 1 4 float_bits (le 4) (fun v => v mod 2 ^ 32) rd_mem CFloat
    (mkData TEC_FLOAT 4 (Some rd_mem)) env_ex rd_file s g tt 0 rd_src "u" 0 (rs_files s xml) "." 0 xml "out.xml"
    rd_after (rd_healthy 0) (proj1 rd_find) Hd N1 rd_after (rd_healthy 1) (proj2 rd_find) N2 D5 HS
    (or_introl (conj eq_refl (conj eq_refl eq_refl))) Hbs Hed rd_image D1 rd_file_wf Hps D6 D2 Htk Hf
    D3 E D4 Hc Hx Hb Hfs EX eq_refl) as (g' & R1 & R2 & R3).
  assert (E1 : step true rd_w (Read 0 0 [1; 0] [FC; FP]) = Some (rd_w, RVal (Some 4))) by (vm_compute; reflexivity).
  assert (L : legal rd_aw (Read 0 0 [1; 0] [FC; FP] : op Z)) by legal_tac.
  specialize (R3 rs_more [1; 0] [FC; FP] rd_w 4 [1; 1] [FC; FC] L E1 eq_refl ltac:(each) eq_refl).
  destruct R3 as (w & rs & R3).
  - apply legal_run_app. split; [exact (proj1 rd_after)|]. cbn [legal_run]. split; [exact R2|].
    assert (A1 : exists f, afind (fst (aexec nofail a_start rd_h)) 1 = Some (rd_k2, ALive [(0, 3, 1); (1, 2, 0)] f)) by (eexists; vm_compute; reflexivity).
    destruct A1 as [f A1].
    destruct (read_plt_alive nofail _ 1 float_bits float_bits (rs_files s xml) "." g' 0 "u" 1 _ _ _ A1) as [f1 A2].
    generalize dependent (fst (astep nofail (fst (aexec nofail a_start rd_h)) (ReadPlt 1 float_bits float_bits (rs_files s xml) "." g' 0 "u" 1))).
    intros aw A2. clear - A2.
    assert (W : forall aw f n q v, afind aw 1 = Some (rd_k2, ALive [(0, 3, 1); (1, 2, 0)] f) ->
                  access_error 2 [center; center] [(0, 3, 1); (1, 2, 0)] n q [FC; FC] = None ->
                  exists f', afind (fst (astep nofail aw (Write 1 n q [FC; FC] v : op Z))) 1 = Some (rd_k2, ALive [(0, 3, 1); (1, 2, 0)] f')).
    { clear. intros aw f n q v A E. cbn [astep]. rewrite A. cbn [a_shape rd_k2 k_N k_locs]. rewrite E. cbn [fst]. eexists.
      unfold with_arr. erewrite afind_put_same; [reflexivity|exact A]. }
    assert (G : forall (aw : aworld Z) f n q, afind aw 1 = Some (rd_k2, ALive [(0, 3, 1); (1, 2, 0)] f) -> in_uint n -> length q = 2%nat -> Forall in_int q ->
                  legal_access aw 1 n q [FC; FC]).
    { clear. intros aw f n q A H1 H2 H3. unfold legal_access, exists_arr. rewrite A. auto. }
    unfold rs_more. cbn [app legal_run].
    split; [cbn [legal]; eapply G; [exact A2|unfold in_uint; lia|reflexivity|repeat constructor; unfold in_int; lia]|].
    destruct (W _ _ 1 [0; -1] 6 A2 eq_refl) as [f2 A3].
    split; [cbn [legal]; eapply G; [exact A3|unfold in_uint; lia|reflexivity|repeat constructor; unfold in_int; lia]|].
    destruct (W _ _ 0 [1; 1] 8 A3 eq_refl) as [f3 A4].
    split; [cbn [legal]; eapply G; [exact A4|unfold in_uint; lia|reflexivity|repeat constructor; unfold in_int; lia]|exact I].
  - intros c [<-|[<-|[]]]; reflexivity.
  - exists s, g, g', xml, w, rs. auto.
Qed.

(** A 2D array, centre by centre, describes the zone of its interior; the array of C36_ex (its second dimension is
    half-located) does not: the zone has 2 points in that direction and the array 3 slots. *)
Example C54_ex :
  find rd_w 1 = Some (rd_k2, rd_o 1) /\
  describe true (rd_o 1) (new_zone "z") = Ok (mkZone "z" (-1) 0 (mk3 3 4 1) (mk3 1 1 1) (mk3 1 0 0) (mk3 0 1 0) [] [] 9) /\
  takes_interior (k_locs rd_k2) (m_size (rd_o 1)) (mkZone "z" (-1) 0 (mk3 3 4 1) (mk3 1 1 1) (mk3 1 0 0) (mk3 0 1 0) [] [] 9) /\
  find rd_w 0 = Some (rd_k1, rd_o 0) /\
  describe true (rd_o 0) (new_zone "z") = Ok (mkZone "z" (-1) 0 (mk3 2 3 1) (mk3 1 1 1) (mk3 0 1 0) (mk3 1 0 0) [] [] 9) /\
  ~ takes_interior (k_locs rd_k1) (m_size (rd_o 0)) (mkZone "z" (-1) 0 (mk3 2 3 1) (mk3 1 1 1) (mk3 0 1 0) (mk3 1 0 0) [] [] 9) /\
  map (fun '(g, l) => extent g l) (combine (m_size (rd_o 0)) (k_locs rd_k1)) = [3; 3].
Proof.
  split; [apply rd_find|]. split; [vm_compute; reflexivity|]. split; [rewrite (proj2 rd_sizes); repeat split|].
  split; [apply rd_find|]. split; [vm_compute; reflexivity|].
  split; [rewrite (proj1 rd_sizes); intros (H & _); discriminate H|rewrite (proj1 rd_sizes); reflexivity].
Qed.
