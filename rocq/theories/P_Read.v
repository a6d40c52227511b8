(** Properties C36, C37 and C47: read_plt.

    Reading guide (see also P_Access.v and P_TecFile.v).  [m_read_plt chk of_float of_double k fs root
    log zone name nn o] is the call o.read_plt(root, log, zone, name, nn) for an array of class [k];
    [fs] are the readable files by path, [of_float] and [of_double] convert the bytes of a float or
    double to the element type ([None]: the conversion is undefined).  Its state is the memory and the
    number of live char buffers.  [log_sizes k z] are the sizes of the logged zone in the order of
    the array's dimensions, [corner ss] is the box [0, s_0) x [0, s_1) x ..., [rank ss q] the position
    of [q] in it.  [readable ...] and [refusal ... e] (Spec_Read.v) list what has to be the case for the
    call to succeed, and the reasons to throw [e], in terms of the log, the file and the array's
    shape; [overwritten] says which elements changed, in terms of what operator() reads. *)

From Coq Require Import ZArith Ascii String List Bool Lia.
From Verif Require Import Base M_Flags M_Bytes M_TecZone M_TecFile Spec_Tec Spec_Plt P_TecFile
  M_Loop M_RS1 M_RS2 M_RS3 M_Heap M_PD1 M_PD2 M_PD3 M_World M_Read
  Spec Spec_Loop Spec_Array Spec_Hist Spec_Reach Spec_Read L_Plt L_ReadLog L_ReadCall L_Read L_ReadKept L_Round L_Access P_Access.
Import ListNotations.
Open Scope list_scope.
Open Scope Z_scope.

(** ** C37: reading *)

(** Every call that a reason to throw applies to throws, with all arrays as they were (the blocks of
    the memory are the same; only requests for memory were counted) and no buffer left. *)
Theorem C37_refused {V} chk (of_float of_double : bytes -> option V) F h w aw a k o fs root log zone name nn live e :
  after F h w aw -> healthy aw a -> find w a = Some (k, o) -> log_wf log -> 0 <= zone -> 0 <= nn ->
  (chk = true \/ nn < k_N k) ->
  refusal fs root log zone name nn k (m_size o) (F (tick (heap w)) = true) e ->
  exists t, m_read_plt chk of_float of_double k fs root log zone name nn o (heap w, live)
            = Thr (mkMem (blocks (heap w)) F t, live) e.
Proof. intros HA HH Hf Hl Hz Hn. exact (read_refused chk of_float of_double F h w aw a k o HA HH Hf fs root log zone name nn live Hl Hz e). Qed.
Print Assumptions C37_refused.

(** Otherwise the zone can be read. *)
Theorem C37_complete {V} F (w : world V) k o fs root log zone name nn :
  log_wf log -> 0 <= zone ->
  (exists e, refusal fs root log zone name nn k (m_size o) (F (tick (heap w)) = true) e) \/
  (exists z d b, readable fs root log zone name nn k (m_size o) (F (tick (heap w)) = true) z d b).
Proof. exact (read_cases F w k o fs root log zone name nn). Qed.
Print Assumptions C37_complete.

(** Then the call overwrites the low corner box of component [nn] with the values of the file, and
    does nothing else. *)
Theorem C37_done {V} chk (of_float of_double : bytes -> option V) F h w aw a k o fs root log zone name nn live z d b :
  after F h w aw -> healthy aw a -> find w a = Some (k, o) -> log_wf log -> 0 <= zone -> 0 <= nn ->
  readable fs root log zone name nn k (m_size o) (F (tick (heap w)) = true) z d b ->
  (forall i, 0 <= i < product (log_sizes k z) -> stored of_float of_double (dl_type d) b (dl_pt d) i <> None) ->
  exists w', m_read_plt chk of_float of_double k fs root log zone name nn o (heap w, live) = Ret (heap w', live) tt /\
    overwritten aw w w' k a o nn (log_sizes k z)
      (fun q => stored of_float of_double (dl_type d) b (dl_pt d) (rank (log_sizes k z) q)).
Proof. intros HA HH Hf Hl Hz Hn. exact (read_done chk of_float of_double F h w aw a k o HA HH Hf fs root log zone name nn live Hl Hz Hn z d b). Qed.
Print Assumptions C37_done.

(** The logs of write_plt meet [log_wf]. *)
Theorem C37_own_logs e f s g u :
  file_wf f -> plt_size f < 2 ^ 63 -> write_plt e f = Ret (s, g) u -> log_wf g.
Proof. intros Hw Hs E. destruct (written_log e f s g u Hw Hs E) as (b & _ & _ & H & _). exact H. Qed.
Print Assumptions C37_own_logs.

(** ** C36: writing and reading back *)

(** Array [a1] (elements of type V1, float or double: [enc] gives their bytes) is the source, component
    [n1] of it being variable [vv], named [name], of zone number [zi] of the file; the zone takes the interior.
    The file is written, and read into component [n2] of array [a2] of another program (elements of
    type V2, to which [cast] converts), whose interior is large enough.  Then every point of the box at
    the low corner of the target's interior reads what the source read there, and nothing else changed. *)
Theorem C36_round_trip {V1 V2} chk (of_float of_double : bytes -> option V2)
    F1 h1 (w1 : world V1) aw1 a1 k1 o1 n1 F2 h2 (w2 : world V2) aw2 a2 k2 o2 n2
    wd dec (enc : V1 -> bytes) (cast : V1 -> V2) mem t d e f s g u zi z name vv fs root live :
  after F1 h1 w1 aw1 -> healthy aw1 a1 -> find w1 a1 = Some (k1, o1) -> o_data o1 <> Null -> 0 <= n1 < k_N k1 ->
  after F2 h2 w2 aw2 -> healthy aw2 a2 -> find w2 a2 = Some (k2, o2) -> 0 <= n2 < k_N k2 ->
  length (k_locs k2) = length (k_locs k1) ->
  Forall2 size_in (m_size o2) (inner (k_locs k1) (m_size o1)) ->
  (t = CFloat /\ wd = 4 /\ dec = of_float \/ t = CDouble /\ wd = 8 /\ dec = of_double) ->
  (forall bs, Z.of_nat (length bs) = wd -> dec bs <> None) -> (forall v, dec (enc v) = Some (cast v)) ->
  image w1 k1 o1 n1 wd enc mem -> data_of t (Some mem) = Ok d ->
  file_wf f -> plt_size f < 2 ^ 63 -> 0 <= zi -> nth_error (f_zones f) (Z.to_nat zi) = Some z ->
  takes_interior (k_locs k1) (m_size o1) z ->
  first_at (f_vars f) name vv -> nth_error (z_data z) vv = Some d ->
  write_plt e f = Ret (s, g) u -> fs (plt_path root g) = disk s -> F2 (tick (heap w2)) = false ->
  exists w2' val,
    m_read_plt chk of_float of_double k2 fs root g zi name n2 o2 (heap w2, live) = Ret (heap w2', live) tt /\
    overwritten aw2 w2 w2' k2 a2 o2 n2 (inner (k_locs k1) (m_size o1)) val /\
    forall q v, in_box (corner (inner (k_locs k1) (m_size o1))) q -> reads w1 k1 o1 n1 q (Some v) -> val q = Some (cast v).
Proof. exact (round_trip chk of_float of_double F1 h1 w1 aw1 a1 k1 o1 n1 F2 h2 w2 aw2 a2 k2 o2 n2
    wd dec enc cast mem t d e f s g u zi z name vv fs root live). Qed.
Print Assumptions C36_round_trip.

(** ** C47: what was read stays *)

(** A legal program [h1] leads to the world [w1], where array [a] can be read from the file.  The program
    goes on with the call of read_plt and with [h2], which does not touch component [nn] of that slot of the
    array (other arrays, other slots, refused calls and further calls of read_plt may occur).  Then operator()
    reads the value stored in the file. *)
Theorem C47_read_kept {V} F h1 h2 w1 aw1 a k o (of_float of_double : bytes -> option V) fs root log zone name nn z d b q fl :
  after F h1 w1 aw1 -> find w1 a = Some (k, o) ->
  legal_run F a_start (h1 ++ ReadPlt a of_float of_double fs root log zone name nn :: h2 ++ [Read a nn q fl]) ->
  readable fs root log zone name nn k (m_size o) (F (tick (heap w1)) = true) z d b ->
  flag_error 0 (k_locs k) fl = None -> in_box (corner (log_sizes k z)) (slot_of q fl) ->
  (forall c, In c h2 -> disturbs c a nn (slot_of q fl) = false) ->
  exists w rs v,
    exec true (start F) (h1 ++ ReadPlt a of_float of_double fs root log zone name nn :: h2 ++ [Read a nn q fl]) =
      Some (w, rs ++ [RVal (Some v)]) /\
    stored of_float of_double (dl_type d) b (dl_pt d) (rank (log_sizes k z) (slot_of q fl)) = Some v.
Proof. exact (read_kept F h1 h2 w1 aw1 a k o of_float of_double fs root log zone name nn z d b q fl). Qed.
Print Assumptions C47_read_kept.

(** ** Examples *)

(** Two 2D arrays; the elements are bit patterns of float. *)
Definition rd_h : list (op Z) :=
  [NewSized (K2 1 center half) [(1, 2, 0); (0, 1, 1)]; NewSized (K2 2 center center) [(0, 3, 1); (1, 2, 0)];
   Write 0 0 [-1; 0] [FC; FN] 9; Write 0 0 [0; 0] [FC; FN] 1065353216; Write 0 0 [0; 1] [FC; FN] 3; Write 0 0 [1; 0] [FC; FN] 2;
   Write 0 0 [1; 0] [FC; FP] 4; Write 1 1 [2; 1] [FC; FC] 7].
Definition rd_w : world Z := match exec true (start nofail) rd_h with Some (w, _) => w | None => start nofail end.
Definition rd_aw : aworld Z := fst (aexec nofail a_start rd_h).
Definition rd_o (a : nat) : obj := match find rd_w a with Some (_, o) => o | None => O1 (mkPD1 (mkSize1 0 0 0) Null []) end.
Definition rd_k1 := K2 1 center half.
Definition rd_k2 := K2 2 center center.

Example rd_after : after nofail rd_h rd_w rd_aw.
Proof. split; [legal_tac|]. split; [reflexivity|]. eexists. vm_compute. reflexivity. Qed.
Example rd_healthy a : healthy rd_aw a.
Proof.
  intros k gs nb. do 2 (destruct a as [|a]; [vm_compute; discriminate|]).
  unfold afind, rd_aw. cbn. destruct a; discriminate.
Qed.
Example rd_find : find rd_w 0 = Some (rd_k1, rd_o 0) /\ find rd_w 1 = Some (rd_k2, rd_o 1).
Proof. split; vm_compute; reflexivity. Qed.

Example rd_sizes : m_size (rd_o 0) = [(1, 2, 0); (0, 1, 1)] /\ m_size (rd_o 1) = [(0, 3, 1); (1, 2, 0)].
Proof. split; vm_compute; reflexivity. Qed.

Ltac each := rewrite ?(proj1 rd_sizes), ?(proj2 rd_sizes); unfold in_box, corner; cbn; repeat (apply Forall2_cons; [cbn; lia|]); apply Forall2_nil.

Definition float_bits (bs : bytes) : option Z := Some (unle bs).

(** A log with two variables (double and integer) of a 2 x 3 zone, and its file. *)
Definition rd_zone (nd : nat) (sz : Z) : zone_log :=
  mkZL zone2 (mkReal 2 2 (mk3 2 3 1) true true) (firstn nd [mkDL 2 sz 1 0 0; mkDL 3 4 1 0 0]) 0 [] [] [].
Definition rd_log (nd : nat) (sz : Z) : file_log :=
  mkFL (mkFile "." "out" "t" ["x"; "y"]%string 0 [] [] 0) [rd_zone nd sz] "" "" 0 0 "" [] [] [].
Definition rd_files (n : nat) : files :=
  fun p => if String.eqb p "data/out.plt" then Some (ascii_of_nat 255 :: concat (repeat (le 8 5) n)) else None.

Example rd_log_wf : log_wf (rd_log 2 8).
Proof.
  unfold log_wf, rd_log. cbn [fl_zones]. apply Forall_cons; [|apply Forall_nil]. split; [reflexivity|]. split.
  - cbn. apply Forall_cons; [cbn; split; [lia|reflexivity]|]. apply Forall_cons; [cbn; split; [lia|reflexivity]|]. apply Forall_nil.
  - unfold list3, in_int. cbn [rd_zone zl_real r_max x0 x1 x2]. repeat (apply Forall_cons; [lia|]). apply Forall_nil.
Qed.

(** The 3 x 2 box of component 1 of the second array is read. *)
Example C37_done_ex :
  readable (rd_files 6) "data" (rd_log 2 8) 0 "x" 1 rd_k2 (m_size (rd_o 1)) (nofail (tick (heap rd_w)) = true)
    (rd_zone 2 8) (mkDL 2 8 1 0 0) (ascii_of_nat 255 :: concat (repeat (le 8 5) 6)) /\
  log_sizes rd_k2 (rd_zone 2 8) = [3; 2] /\ rank [3; 2] [2; 1] = 5 /\
  (forall i, 0 <= i < 6 -> stored float_bits float_bits 2 (ascii_of_nat 255 :: concat (repeat (le 8 5) 6)) 1 i <> None).
Proof.
  split; [|split; [reflexivity|split; [reflexivity|intros; discriminate]]].
  split; [|right; reflexivity]. split; [|split; [vm_compute; discriminate|vm_compute; discriminate]].
  split; [|split; [reflexivity|cbn; lia]]. split; [|exists 0%nat; split; [split; [reflexivity|intros i Hi; lia]|reflexivity]].
  split; [split; [cbn; lia|reflexivity]|]. each.
Qed.

(** Each reason to throw. *)
Example C37_refused_ex :
  let R n name zone := refusal (rd_files n) "data" (rd_log 2 8) zone name in
  R 6%nat "x"%string 0 2 rd_k2 (m_size (rd_o 1)) False (EN 2 1) /\
  R 6%nat "x"%string 1 1 rd_k2 (m_size (rd_o 1)) False EZoneTooBig /\
  R 6%nat "x"%string 0 0 rd_k1 (m_size (rd_o 0)) False EFileSize /\
  R 6%nat "z"%string 0 1 rd_k2 (m_size (rd_o 1)) False EVarNotFound /\
  refusal (rd_files 6) "elsewhere" (rd_log 2 8) 0 "x" 1 rd_k2 (m_size (rd_o 1)) False EOpen /\
  R 6%nat "x"%string 0 1 rd_k2 (m_size (rd_o 1)) True ENoMem /\
  R 5%nat "x"%string 0 1 rd_k2 (m_size (rd_o 1)) False ERead /\
  R 5%nat "y"%string 0 1 rd_k2 (m_size (rd_o 1)) False ETecType.
Proof.
  cbv zeta.
  assert (L1 : located (rd_log 2 8) 0 1 rd_k2 (rd_zone 2 8)) by (split; [cbn; lia|reflexivity]).
  assert (L0 : located (rd_log 2 8) 0 0 rd_k1 (rd_zone 2 8)) by (split; [cbn; lia|reflexivity]).
  assert (S1 : sized (rd_log 2 8) 0 1 rd_k2 (m_size (rd_o 1)) (rd_zone 2 8)) by (split; [exact L1|]; each).
  assert (N1 : named (rd_log 2 8) 0 "x" 1 rd_k2 (m_size (rd_o 1)) (rd_zone 2 8) (mkDL 2 8 1 0 0)).
  { split; [exact S1|]. exists 0%nat. split; [split; [reflexivity|intros i Hi; lia]|reflexivity]. }
  assert (N2 : named (rd_log 2 8) 0 "y" 1 rd_k2 (m_size (rd_o 1)) (rd_zone 2 8) (mkDL 3 4 1 0 0)).
  { split; [exact S1|]. exists 1%nat. split; [split; [reflexivity|intros [|i] Hi; [discriminate|lia]]|reflexivity]. }
  assert (O1 : forall n, opened (rd_files n) "data" (rd_log 2 8) 0 "x" 1 rd_k2 (m_size (rd_o 1)) (rd_zone 2 8) (mkDL 2 8 1 0 0)
                           (ascii_of_nat 255 :: concat (repeat (le 8 5) n))).
  { intros n. split; [exact N1|]. split; [reflexivity|cbn; lia]. }
  split; [|split; [|split; [|split; [|split; [|split; [|split]]]]]].
  - apply (no_component _ _ _ _ _ 2). cbn. lia.
  - apply no_zone; cbn; lia.
  - apply (wrong_size _ _ _ _ _ _ _ _ _ _ L0). rewrite (proj1 rd_sizes). intros H. cbn in H. inversion H as [|? ? ? ? X _]; subst. cbn in X. lia.
  - apply (no_name _ _ _ _ _ _ _ _ _ _ S1). cbn. intuition discriminate.
  - apply (no_file _ _ _ _ _ _ _ _ _ _ _ N1). left. reflexivity.
  - apply (no_memory _ _ _ _ _ _ _ _ _ _ _ _ (O1 6%nat)). exact I.
  - apply (too_short _ _ _ _ _ _ _ _ _ _ _ _ (O1 5%nat)); [tauto|vm_compute; reflexivity].
  - apply (wrong_type _ _ _ _ _ _ _ _ _ (rd_zone 2 8) (mkDL 3 4 1 0 0) (ascii_of_nat 255 :: concat (repeat (le 8 5) 5))); [|discriminate|discriminate].
    split; [|split; [|]].
    + split; [exact N2|]. split; [reflexivity|cbn; lia].
    + tauto.
    + vm_compute. discriminate.
Qed.

(** Without [log_wf] the property fails: a zone with fewer entries than variables, and an element size
    that is not that of the type. *)
Theorem C37_any_log_refuted :
  exists F (h : list (op Z)) w aw a k o fs root log log' zone name name' nn,
    after F h w aw /\ healthy aw a /\ find w a = Some (k, o) /\ 0 <= nn < k_N k /\
    m_read_plt true float_bits float_bits k fs root log zone name nn o (heap w, 0) = Undef /\
    m_read_plt true float_bits float_bits k fs root log' zone name' nn o (heap w, 0) = Undef.
Proof.
  exists nofail, rd_h, rd_w, rd_aw, 1%nat, rd_k2, (rd_o 1), (rd_files 6), "data"%string, (rd_log 1 8), (rd_log 2 4), 0, "y"%string, "x"%string, 1.
  split; [exact rd_after|]. split; [apply rd_healthy|]. split; [apply rd_find|]. split; [cbn; lia|].
  split; vm_compute; reflexivity.
Qed.
Print Assumptions C37_any_log_refuted.

(** In unchecked mode a component that does not exist is not refused. *)
Theorem C37_unchecked_component_refuted :
  exists F (h : list (op Z)) w aw a k o fs root log zone name nn,
    after F h w aw /\ healthy aw a /\ find w a = Some (k, o) /\ log_wf log /\ k_N k <= nn /\
    m_read_plt false float_bits float_bits k fs root log zone name nn o (heap w, 0) = Undef.
Proof.
  exists nofail, rd_h, rd_w, rd_aw, 1%nat, rd_k2, (rd_o 1), (rd_files 6), "data"%string, (rd_log 2 8), 0, "x"%string, 2.
  split; [exact rd_after|]. split; [apply rd_healthy|]. split; [apply rd_find|]. split; [apply rd_log_wf|]. split; [cbn; lia|].
  vm_compute; reflexivity.
Qed.
Print Assumptions C37_unchecked_component_refuted.

(** The interior of the first array (2 cells by 2 faces) is written and read into the second. *)
Definition rd_mem : bytes := flat_map (le 4) [9; 0; 0; 1065353216; 3; 0; 2; 4; 0].
Definition rd_src : zone :=
  mkZone "src" (-1) 0 (mk3 3 3 1) (mk3 1 1 1) (mk3 0 1 0) (mk3 1 0 0) [] [mkData TEC_FLOAT 4 (Some rd_mem)] 0.
Definition rd_file : tfile := mkFile "." "out" "t" ["u"]%string 0 [] [rd_src] 0.

Example rd_file_wf : file_wf rd_file.
Proof.
  unfold file_wf. split; [unfold in_int; cbn; lia|]. split; [cbn; lia|]. split; [cbn; lia|].
  apply Forall_cons; [|apply Forall_nil]. zone_numbers. apply Forall_cons; [made_by CFloat|]. apply Forall_nil.
Qed.
Example rd_image : image rd_w rd_k1 (rd_o 0) 0 4 (le 4) rd_mem.
Proof.
  exists O, 0. split; [vm_compute; reflexivity|]. intros i v Hi. rewrite (proj1 rd_sizes) in Hi. change (vol _) with 9 in Hi.
  assert (C : i = 0 \/ i = 1 \/ i = 2 \/ i = 3 \/ i = 4 \/ i = 5 \/ i = 6 \/ i = 7 \/ i = 8) by lia.
  destruct C as [->|[->|[->|[->|[->|[->|[->|[->| ->]]]]]]]]; intros E; vm_compute in E; try discriminate; injection E as <-; vm_compute; reflexivity.
Qed.

Example rd_out : exists s g, write_plt env_ex rd_file = Ret (s, g) tt /\ plt_path "." g = "./out.plt"%string.
Proof. eexists. eexists. split; vm_compute; reflexivity. Qed.

(** The hypotheses of C36 hold for this pair, and the copy arrives: the value 4 of face 1 of cell 1. *)
Example C36_ex : exists s g w2' val,
  write_plt env_ex rd_file = Ret (s, g) tt /\
  Forall2 size_in (m_size (rd_o 1)) (inner (k_locs rd_k1) (m_size (rd_o 0))) /\ o_data (rd_o 0) <> Null /\
  inner (k_locs rd_k1) (m_size (rd_o 0)) = [2; 2] /\
  m_read_plt true float_bits float_bits rd_k2 (fun p => if String.eqb p "./out.plt" then disk s else None) "." g 0 "u" 1 (rd_o 1)
    (heap rd_w, 0) = Ret (heap w2', 0) tt /\
  overwritten rd_aw rd_w w2' rd_k2 1 (rd_o 1) 1 [2; 2] val /\ val [1; 1] = Some 4 /\
  reads w2' rd_k2 (rd_o 1) 1 [2; 1] (Some 7).
Proof.
  destruct rd_out as (s & g & E & Ep). exists s, g.
  assert (HS : Forall2 size_in (m_size (rd_o 1)) (inner (k_locs rd_k1) (m_size (rd_o 0)))) by (each).
  assert (Hd : o_data (rd_o 0) <> Null) by (vm_compute; discriminate).
  assert (Hf : first_at (f_vars rd_file) "u" 0) by (split; [reflexivity|intros i Hi; lia]).
  assert (Hed : forall v, float_bits (le 4 v) = Some (v mod 2 ^ 32)) by (intros v; unfold float_bits; now rewrite unle_le).
  assert (Hfs : (fun p => if String.eqb p "./out.plt" then disk s else None) (plt_path "." g) = disk s) by now rewrite Ep.
  assert (Htk : takes_interior (k_locs rd_k1) (m_size (rd_o 0)) rd_src) by (rewrite (proj1 rd_sizes); repeat split).
  assert (Hps : plt_size rd_file < 2 ^ 63) by (vm_compute; reflexivity).
  assert (Hb : forall bs, Z.of_nat (length bs) = 4 -> float_bits bs <> None) by discriminate.
  assert (N1 : 0 <= 0 < k_N rd_k1) by (cbn; lia). assert (N2 : 0 <= 1 < k_N rd_k2) by (cbn; lia).
  assert (D1 : data_of CFloat (Some rd_mem) = Ok (mkData TEC_FLOAT 4 (Some rd_mem))) by (vm_compute; reflexivity).
  assert (D2 : nth_error (f_zones rd_file) (Z.to_nat 0) = Some rd_src) by (vm_compute; reflexivity).
  assert (D3 : nth_error (z_data rd_src) 0 = Some (mkData TEC_FLOAT 4 (Some rd_mem))) by (vm_compute; reflexivity).
  assert (D4 : nofail (tick (heap rd_w)) = false) by (unfold nofail; reflexivity).
  assert (D5 : length (k_locs rd_k2) = length (k_locs rd_k1)) by reflexivity.
  pose proof (C36_round_trip true float_bits float_bits nofail rd_h rd_w rd_aw 0 rd_k1 (rd_o 0) 0
    nofail rd_h rd_w rd_aw 1 rd_k2 (rd_o 1) 1 4 float_bits (le 4) (fun v => v mod 2 ^ 32) rd_mem CFloat
    (mkData TEC_FLOAT 4 (Some rd_mem)) env_ex rd_file s g tt 0 rd_src "u" 0
    (fun p => if String.eqb p "./out.plt" then disk s else None) "." 0
    rd_after (rd_healthy 0) (proj1 rd_find) Hd N1 rd_after (rd_healthy 1) (proj2 rd_find) N2 D5 HS
    (or_introl (conj eq_refl (conj eq_refl eq_refl))) Hb Hed rd_image D1 rd_file_wf Hps (Z.le_refl 0) D2 Htk Hf
    D3 E Hfs D4) as (w2' & val & R1 & R2 & R3).
  exists w2', val. split; [exact E|]. split; [exact HS|]. split; [exact Hd|].
  rewrite (proj1 rd_sizes) in R2, R3. split; [now rewrite (proj1 rd_sizes)|]. split; [exact R1|]. split; [exact R2|]. split.
  - apply (R3 [1; 1] 4); [each|].
    exists [1; 0], [FC; FP]. eexists. split; [|split; [reflexivity|split; vm_compute; reflexivity]].
    unfold accepts. rewrite ?(proj1 rd_sizes), ?(proj2 rd_sizes). cbn. lia.
  - destruct R2 as (_ & _ & R2 & _). apply R2; [cbn; lia|each|].
    change (in_boxb _ _) with false. rewrite andb_false_r.
    exists [2; 1], [FC; FC]. eexists. split; [|split; [reflexivity|split; vm_compute; reflexivity]].
    unfold accepts. rewrite ?(proj1 rd_sizes), ?(proj2 rd_sizes). cbn. lia.
Qed.

(** The program goes on after read_plt: a write beside the box, a refused read, a read of another component, and
    the other array is cleared.  Element (1, 1) is read from the file; the ghost element written at the start
    is still there. *)
Definition rd_call (nn : Z) (name : string) : op Z :=
  ReadPlt 1 float_bits float_bits (rd_files 6) "data" (rd_log 2 8) 0 name nn.
Definition rd_more : list (op Z) := [Write 1 1 [0; -1] [FC; FC] 6; rd_call 2 "x"; rd_call 0 "x"; Clear 0].

Ltac data_tac :=
  split; [intros gs nb; discriminate|]; intros z vv d b i Ez Ev Ed Eb _ _ _ _; unfold stored, float_bits;
  destruct (dl_type d =? 1); discriminate.

Example C47_ex :
  legal_run nofail a_start (rd_h ++ rd_call 1 "x" :: rd_more ++ [Read 1 1 [1; 1] [FC; FC]]) /\
  (forall c, In c rd_more -> disturbs c 1 1 [1; 1] = false) /\
  disturbs (rd_call 1 "x") 1 1 [1; 1] = true /\ disturbs (rd_call 1 "x") 1 1 [3; 1] = false /\
  snd (aexec nofail a_start (rd_h ++ rd_call 1 "x" :: rd_more ++
         [Read 1 1 [1; 1] [FC; FC]; Read 1 1 [0; -1] [FC; FC]; Read 1 0 [2; 1] [FC; FC]])) =
  repeat RDone 10 ++ [RExn (EN 2 1); RDone; RDone; RVal (Some 5); RVal (Some 6); RVal (Some 5)].
Proof.
  split; [|split; [|repeat split; vm_compute; reflexivity]].
  - assert (L : forall nn name aw, 0 <= nn <= 2 -> (exists f, afind aw 1 = Some (rd_k2, ALive [(0, 3, 1); (1, 2, 0)] f)) ->
                legal aw (rd_call nn name)).
    { intros nn name aw Hn (f & Hf). unfold rd_call. cbn [legal]. split; [unfold in_uint; lia|]. split; [unfold in_uint; lia|].
      split; [exact rd_log_wf|]. unfold exists_arr. rewrite Hf. data_tac. }
    apply legal_run_app. split; [exact (proj1 rd_after)|].
    cbn [app legal_run]. split; [apply L; [lia|]; eexists; vm_compute; reflexivity|].
    unfold rd_more. cbn [app legal_run].
    split; [legal_tac|]. split; [apply L; [lia|]; eexists; vm_compute; reflexivity|].
    split; [apply L; [lia|]; eexists; vm_compute; reflexivity|]. split; [legal_tac|]. split; [legal_tac|exact I].
  - intros c H. cbn in H. repeat (destruct H as [<-|H]; [vm_compute; reflexivity|]). destruct H.
Qed.
