(** Property C61: the data of a whole program, saved and loaded.

    Reading guide (see also P_Read.v, P_Restart.v and P_Output.v).  [h1] leads the first program to the world [w1], where it calls
    write_plt and writes the log as XML; [h2] leads the second one to [w2], where it reads the log and calls read_plt once for
    each of the moves [ms].  [saved]: the file has the interior of that component as that variable of that zone; [takes]: the array
    it is read into is big enough; [memory_for F2 w2 c]: the next [c] requests for memory succeed; [all_moved]: afterwards all
    target slots read what the sources read, and all others what they read before. *)

From Coq Require Import ZArith Ascii String List Bool Lia FinFun.
From Verif Require Import Base M_Flags M_Bytes M_TecZone M_TecFile Spec_Tec Spec_Plt Spec_Aux Spec_Xml P_TecFile
  M_Loop M_RS1 M_RS2 M_RS3 M_Heap M_PD1 M_PD2 M_PD3 M_World M_Read
  Spec Spec_Loop Spec_Array Spec_Hist Spec_Reach Spec_Read Spec_Move L_Plt L_ReadLog L_ReadCall L_Read L_Round L_Access P_Access P_Read
  L_Aux M_ReadXml L_XmlLog L_XmlRead P_Xml M_Output Spec_Output L_Output P_Output L_Restart L_Move.
Import ListNotations.
Open Scope list_scope.
Open Scope Z_scope.

(** Any number of components of any arrays of any kinds, into different components. *)
Theorem C61_state {V1 V2} (of_float of_double : bytes -> option V2)
    F1 h1 (w1 : world V1) aw1 F2 h2 (w2 : world V2) aw2 ms
    wd dec (enc : V1 -> bytes) (cast : V1 -> V2) t e f s g u fs root depth xml log :
  after F1 h1 w1 aw1 -> after F2 h2 w2 aw2 ->
  (t = CFloat /\ wd = 4 /\ dec = of_float \/ t = CDouble /\ wd = 8 /\ dec = of_double) ->
  (forall bs, Z.of_nat (length bs) = wd -> dec bs <> None) -> (forall v, dec (enc v) = Some (cast v)) ->
  file_wf f -> plt_size f < 2 ^ 63 -> write_plt e f = Ret (s, g) u ->
  Forall (saved w1 aw1 t wd enc f) ms -> Forall (takes w1 w2 aw2) ms ->
  NoDup (map (fun m => (mv_to m, mv_into m)) ms) -> memory_for F2 w2 (length ms) ->
  calm e -> xml_safe f -> plain_text (e_begin e) ->
  fs (plt_path root g) = disk s -> xml_file g depth = Ok xml -> fs (c_str log) = Some (list_ascii_of_string xml) ->
  exists g', read_log fs log = Ok g' /\
    exists w2' aw2',
      after F2 (h2 ++ map (fun m => ReadPlt (mv_to m) of_float of_double fs root g' (mv_zone m) (mv_name m) (mv_into m)) ms) w2' aw2' /\
      exec true w2 (map (fun m => ReadPlt (mv_to m) of_float of_double fs root g' (mv_zone m) (mv_name m) (mv_into m)) ms) =
        Some (w2', repeat RDone (length ms)) /\
      all_moved w1 w2 w2' aw2 cast ms.
Proof.
  intros A1 A2 Ht Hdec Hed Hw Hps Ew HS HT HN HM Hc Hx Hb Hfs Ex Hl.
  destruct (log_round_trip e f s g u depth Hw Hps Ew Hc Hx Hb) as (x & g' & Ex' & Hg & HR).
  assert (x = xml) by congruence. subst x. exists g'. split; [exact (HR fs log Hl)|].
  exact (loads of_float of_double F1 F2 h1 w1 aw1 wd dec enc cast t e f s g u fs root g' A1 Ht Hdec Hed Hw Hps Ew Hfs Hg ms h2 w2 aw2
    A2 HS HT HN HM).
Qed.
Print Assumptions C61_state.

(** The components 0, ..., N-1. *)
Definition components (N : Z) : list Z := map Z.of_nat (seq 0 (Z.to_nat N)).

(** All components of one array, registered by [data_pt(n)] some time before (component [n] is variable [vv n], of name [names n])
    and loaded one after the other. *)
Theorem C61_array {V1 V2} (of_float of_double : bytes -> option V2)
    F1 h0 h1 (w0 w1 : world V1) aw0 aw1 a1 k1 o1 F2 h2 (w2 : world V2) aw2 a2 k2 o2
    wd dec (enc : V1 -> bytes) junk (cast : V1 -> V2) t e f rs s g u zi z names vv fs root depth xml log :
  after F1 h0 w0 aw0 -> healthy aw0 a1 -> find w0 a1 = Some (k1, o1) -> o_data o1 <> Null ->
  in_uint zi -> nth_error (f_zones f) (Z.to_nat zi) = Some z -> takes_interior (k_locs k1) (m_size o1) z ->
  (forall n, 0 <= n < k_N k1 -> exists p r, m_data_pt true k1 (heap w0) o1 n = Ok p /\ ref_of t p = Ok r /\
     nth_error (rs (Z.to_nat zi)) (vv n) = Some r /\ first_at (f_vars f) (names n) (vv n)) ->
  encodes t wd enc junk ->
  after F1 (h0 ++ h1) w1 aw1 -> (forall c, In c h1 -> frees c a1 = false) ->
  after F2 h2 w2 aw2 -> healthy aw2 a2 -> find w2 a2 = Some (k2, o2) -> k_N k1 <= k_N k2 ->
  length (k_locs k2) = length (k_locs k1) -> Forall2 size_in (m_size o2) (inner (k_locs k1) (m_size o1)) ->
  (t = CFloat /\ wd = 4 /\ dec = of_float \/ t = CDouble /\ wd = 8 /\ dec = of_double) ->
  (forall bs, Z.of_nat (length bs) = wd -> dec bs <> None) -> (forall v, dec (enc v) = Some (cast v)) ->
  file_wf (fill enc junk (heap w1) f rs) -> plt_size (fill enc junk (heap w1) f rs) < 2 ^ 63 ->
  write_refs enc junk e (heap w1) f rs = Ret (s, g) u -> memory_for F2 w2 (Z.to_nat (k_N k1)) ->
  calm e -> xml_safe (fill enc junk (heap w1) f rs) -> plain_text (e_begin e) ->
  fs (plt_path root g) = disk s -> xml_file g depth = Ok xml -> fs (c_str log) = Some (list_ascii_of_string xml) ->
  exists g', read_log fs log = Ok g' /\
    exists w2' aw2',
      after F2 (h2 ++ map (fun n => ReadPlt a2 of_float of_double fs root g' zi (names n) n) (components (k_N k1))) w2' aw2' /\
      exec true w2 (map (fun n => ReadPlt a2 of_float of_double fs root g' zi (names n) n) (components (k_N k1))) =
        Some (w2', repeat RDone (Z.to_nat (k_N k1))) /\
      find w2' a2 = Some (k2, o2) /\
      (forall n q v, 0 <= n < k_N k1 -> in_box (corner (inner (k_locs k1) (m_size o1))) q ->
         reads w1 k1 o1 n q (Some v) -> reads w2' k2 o2 n q (Some (cast v))) /\
      (forall n q v, 0 <= n < k_N k2 -> in_box (slot_box (m_size o2) (k_locs k2)) q ->
         k_N k1 <= n \/ ~ in_box (corner (inner (k_locs k1) (m_size o1))) q -> (reads w2' k2 o2 n q v <-> reads w2 k2 o2 n q v)).
Proof.
  intros A0 H0 Hf0 Hd Hzi Hz Htk Hreg He A1 Hx A2 H2 Hf2 HN HK HS Ht Hdec Hed Hw Hps Ew HM Hc Hxs Hb Hfs Ex Hl.
  set (ms := map (fun n => mkMove a1 n zi (names n) a2 n) (components (k_N k1))).
  assert (Hin : forall n, In n (components (k_N k1)) <-> 0 <= n < k_N k1).
  { intros n. unfold components. rewrite in_map_iff. split.
    - intros (i & <- & Hi). apply in_seq in Hi. lia.
    - intros Hn. exists (Z.to_nat n). rewrite in_seq. lia. }
  assert (Hlen : length ms = Z.to_nat (k_N k1)) by (unfold ms, components; now rewrite !map_length, seq_length).
  assert (Hf1 : find w1 a1 = Some (k1, o1)) by exact (run_find F1 h1 h0 w0 aw0 w1 aw1 a1 k1 o1 A0 A1 Hf0 Hd Hx).
  destruct (C61_state of_float of_double F1 (h0 ++ h1) w1 aw1 F2 h2 w2 aw2 ms wd dec enc cast t e (fill enc junk (heap w1) f rs)
    s g u fs root depth xml log A1 A2 Ht Hdec Hed Hw Hps Ew) as (g' & R & w2' & aw2' & HA & HE & Ho & Hv & Hu); auto.
  - apply Forall_forall. intros m Hm. unfold ms in Hm. apply in_map_iff in Hm. destruct Hm as (n & <- & Hn). apply Hin in Hn.
    destruct (Hreg n Hn) as (p & r & Ep & Er & Ev & Hfa).
    destruct (registered_stays F1 h0 h1 w0 w1 aw0 aw1 a1 k1 o1 n p enc junk t wd r A0 H0 Hf0 Hd Hn Ep Er He A1 Hx)
      as (_ & HH1 & _ & mem & Em & Himg & _).
    pose proof (ref_inv _ _ _ Er) as [_ Ed].
    exists k1, o1, mem, (resolve enc junk (heap w1) r), (fill_zone enc junk (heap w1) z (rs (Z.to_nat zi))), (vv n).
    cbn [mv_from mv_comp mv_zone mv_name]. split; [exact HH1|]. split; [exact Hf1|]. split; [exact Hd|]. split; [exact Hn|].
    split; [exact Himg|]. split; [rewrite Ed; unfold resolve; cbn [d_mem resolve] in Em; now rewrite Em|]. split; [exact Hzi|].
    split; [exact (fill_zones_nth enc junk (heap w1) rs (f_zones f) 0 (Z.to_nat zi) z Hz)|]. split; [exact Htk|].
    split; [exact Hfa|]. cbn [fill_zone z_data]. now apply map_nth_error.
  - apply Forall_forall. intros m Hm. unfold ms in Hm. apply in_map_iff in Hm. destruct Hm as (n & <- & Hn). apply Hin in Hn.
    exists k1, o1, k2, o2. cbn [mv_from mv_to mv_into]. repeat (split; [assumption|]). split; [lia|]. auto.
  - unfold ms. rewrite map_map. cbn [mv_to mv_into]. unfold components. rewrite map_map. apply Injective_map_NoDup; [|apply seq_NoDup].
    intros i j E. injection E. lia.
  - now rewrite Hlen.
  - exists g'. split; [exact R|]. exists w2', aw2'. unfold ms in HA, HE. rewrite map_map in HA, HE. fold ms in HE. rewrite Hlen in HE.
    split; [exact HA|]. split; [exact HE|].
    assert (Hf2' : find w2' a2 = Some (k2, o2)) by (unfold find; rewrite Ho; exact Hf2).
    split; [exact Hf2'|]. split.
    + intros n q v Hn Hq Hrd. apply (Hv (mkMove a1 n zi (names n) a2 n) k1 o1 k2 o2 q v); cbn [mv_from mv_to mv_comp mv_into]; auto.
      * apply in_map_iff. exists n. split; [reflexivity|now apply Hin].
      * exists k1, o1. auto.
    + intros n q v Hn Hq Hno. apply (Hu a2 k2 o2 n q v); auto.
      intros m Hm _ En (k & o & Hf & Hb'). unfold ms in Hm. apply in_map_iff in Hm. destruct Hm as (n' & <- & Hn'). apply Hin in Hn'.
      cbn [mv_from mv_into] in *. subst n'. rewrite Hf1 in Hf. injection Hf as <- <-. destruct Hno; [lia|auto].
Qed.
Print Assumptions C61_array.

(** ** Examples *)

(** Array 0: 1D, two components, two interior points with one point before and after.  Array 1: 2D, one component, one by two cells,
    faces in the second direction.  Zone 0 has both components of array 0, zone 1 has that of array 1 twice. *)
Definition sv_h : list (op Z) :=
  [NewSized (K1 2 center) [(1, 2, 1)]; Write 0 0 [0] [FC] 5; Write 0 1 [1] [FC] 6; Write 0 0 [-1] [FC] 9;
   NewSized (K2 1 center half) [(0, 1, 0); (0, 2, 0)]; Write 1 0 [0; 1] [FC; FP] 7].
Definition sv_k (a : nat) : kind := match a with O => K1 2 center | _ => K2 1 center half end.
Definition sv_o (a : nat) : obj := match find (out_w sv_h) a with Some (_, o) => o | None => O1 (mkPD1 (mkSize1 0 0 0) Null []) end.
Definition sv_zone (n i : Z) : zone := mkZone "z" (-1) 0 (mk3 n 1 1) (mk3 1 1 1) (mk3 i 0 0) (mk3 i 0 0) [] [] 0.
Definition sv_file : tfile := mkFile "." "out" "t" ["u"; "v"]%string 0 [] [sv_zone 4 1; sv_zone 3 0] 0.
Definition sv_refs (i : nat) : list tref :=
  match i with O => [out_ref (Ptr 0 0); out_ref (Ptr 0 4)] | _ => [out_ref (Ptr 1 0); out_ref (Ptr 1 0)] end.
Definition sv_full : tfile := fill (le 4) out_junk (heap (out_w sv_h)) sv_file sv_refs.

(** The other program. *)
Definition ld_h : list (op Z) :=
  [NewSized (K1 3 half) [(0, 2, 0)]; NewSized (K2 1 half center) [(1, 1, 0); (0, 3, 1)]; Write 0 2 [1] [FN] 8].
Definition ld_o (a : nat) : obj := match find (out_w ld_h) a with Some (_, o) => o | None => O1 (mkPD1 (mkSize1 0 0 0) Null []) end.
Definition ld_k (a : nat) : kind := match a with O => K1 3 half | _ => K2 1 half center end.

Example sv_after : after nofail (sv_h ++ []) (out_w sv_h) (out_aw sv_h).
Proof. rewrite app_nil_r. split; [legal_tac|]. split; [reflexivity|]. eexists. vm_compute. reflexivity. Qed.
Example ld_after : after nofail ld_h (out_w ld_h) (out_aw ld_h).
Proof. split; [legal_tac|]. split; [reflexivity|]. eexists. vm_compute. reflexivity. Qed.
Example sv_facts :
  find (out_w sv_h) 0 = Some (sv_k 0, sv_o 0) /\ find (out_w sv_h) 1 = Some (sv_k 1, sv_o 1) /\
  find (out_w ld_h) 0 = Some (ld_k 0, ld_o 0) /\ find (out_w ld_h) 1 = Some (ld_k 1, ld_o 1) /\
  m_size (sv_o 0) = [(1, 2, 1)] /\ m_size (sv_o 1) = [(0, 1, 0); (0, 2, 0)] /\
  m_size (ld_o 0) = [(0, 2, 0)] /\ m_size (ld_o 1) = [(1, 1, 0); (0, 3, 1)] /\
  is_null (o_data (sv_o 0)) = false /\ is_null (o_data (sv_o 1)) = false /\
  m_data_pt true (sv_k 0) (heap (out_w sv_h)) (sv_o 0) 0 = Ok (Ptr 0 0) /\
  m_data_pt true (sv_k 0) (heap (out_w sv_h)) (sv_o 0) 1 = Ok (Ptr 0 4) /\
  m_data_pt true (sv_k 1) (heap (out_w sv_h)) (sv_o 1) 0 = Ok (Ptr 1 0) /\
  plt_size sv_full <? 2 ^ 63 = true.
Proof. vm_compute. repeat split. Qed.
Example sv_healthy a : healthy (out_aw sv_h) a.
Proof. intros k gs nb. destruct a as [|[|a]]; [vm_compute; discriminate|vm_compute; discriminate|]. unfold afind. destruct a; vm_compute; discriminate. Qed.
Example ld_healthy a : healthy (out_aw ld_h) a.
Proof. intros k gs nb. destruct a as [|[|a]]; [vm_compute; discriminate|vm_compute; discriminate|]. unfold afind. destruct a; vm_compute; discriminate. Qed.

(** What C60 says of the registered components. *)
Example sv_reg a n p : In (a, n, p) [(0%nat, 0, Ptr 0 0); (0%nat, 1, Ptr 0 4); (1%nat, 0, Ptr 1 0)] ->
  find (out_w sv_h) a = Some (sv_k a, sv_o a) /\ o_data (sv_o a) <> Null /\ 0 <= n < k_N (sv_k a) /\
  exists mem, image (out_w sv_h) (sv_k a) (sv_o a) n 4 (le 4) mem /\
    M_TecZone.data_of CFloat (Some mem) = Ok (resolve (le 4) out_junk (heap (out_w sv_h)) (out_ref p)) /\
    forall z, takes_interior (k_locs (sv_k a)) (m_size (sv_o a)) z -> data_wf z (resolve (le 4) out_junk (heap (out_w sv_h)) (out_ref p)).
Proof.
  destruct sv_facts as (F0 & F1 & _ & _ & _ & _ & _ & _ & D0 & D1 & P0 & P1 & P2 & _).
  intros Hin.
  assert (X : find (out_w sv_h) a = Some (sv_k a, sv_o a) /\ is_null (o_data (sv_o a)) = false /\ 0 <= n < k_N (sv_k a) /\
    m_data_pt true (sv_k a) (heap (out_w sv_h)) (sv_o a) n = Ok p).
  { destruct Hin as [E|[E|[E|[]]]]; injection E as <- <- <-; (split; [assumption|]); (split; [assumption|]); (split; [cbn; lia|assumption]). }
  clear Hin F0 F1 D0 D1 P0 P1 P2. destruct X as (X1 & X2 & X3 & X4).
  assert (X5 : o_data (sv_o a) <> Null) by (intros E; rewrite E in X2; discriminate X2).
  split; [exact X1|]. split; [exact X5|]. split; [exact X3|].
  assert (sv_after0 : after nofail sv_h (out_w sv_h) (out_aw sv_h)) by (pose proof sv_after as Y; rewrite app_nil_r in Y; exact Y).
  destruct (C60_stays nofail sv_h [] (out_w sv_h) (out_w sv_h) (out_aw sv_h) (out_aw sv_h) a (sv_k a) (sv_o a) n p (le 4) out_junk CFloat 4 (out_ref p)
    sv_after0 (sv_healthy a) X1 X5 X3 X4 eq_refl out_encodes sv_after ltac:(intros c [])) as (_ & _ & _ & mem & Em & Hi & Hz).
  exists mem. split; [exact Hi|]. split; [|exact Hz]. unfold resolve in *. cbn [d_mem] in Em. rewrite Em. reflexivity.
Qed.

Example sv_tk0 : takes_interior (k_locs (sv_k 0)) (m_size (sv_o 0)) (sv_zone 4 1).
Proof. destruct sv_facts as (_ & _ & _ & _ & S0 & _). rewrite S0. repeat split. Qed.
Example sv_tk1 : takes_interior (k_locs (sv_k 1)) (m_size (sv_o 1)) (sv_zone 3 0).
Proof. destruct sv_facts as (_ & _ & _ & _ & _ & S1 & _). rewrite S1. repeat split. Qed.

Example sv_wf : file_wf sv_full.
Proof.
  unfold file_wf, sv_full. cbn [fill f_type f_vars f_zones sv_file fill_zones length].
  split; [unfold in_int; lia|]. split; [cbn; lia|]. split; [cbn; lia|].
  assert (Z4 : forall z, In z [fill_zone (le 4) out_junk (heap (out_w sv_h)) (sv_zone 4 1) (sv_refs 0);
                               fill_zone (le 4) out_junk (heap (out_w sv_h)) (sv_zone 3 0) (sv_refs 1)] ->
                all_dirs dir_ints z) by (intros z [<-|[<-|[]]]; unfold all_dirs, dir_ints, in_int; cbn; lia).
  apply Forall_cons; [|apply Forall_cons; [|apply Forall_nil]].
  - unfold zone_wf. split; [apply Z4; now left|]. split; [unfold all_dirs; cbn; lia|].
    split; [cbn; lia|]. split; [unfold in_int; cbn; lia|]. split; [cbn; lia|]. cbn [fill_zone z_data map sv_refs].
    destruct (sv_reg 0 0 (Ptr 0 0)) as (_ & _ & _ & _ & _ & _ & H0); [cbn; auto|].
    destruct (sv_reg 0 1 (Ptr 0 4)) as (_ & _ & _ & _ & _ & _ & H1); [cbn; auto|].
    apply Forall_cons; [|apply Forall_cons; [|apply Forall_nil]]; [apply H0|apply H1]; exact sv_tk0.
  - unfold zone_wf. split; [apply Z4; right; now left|]. split; [unfold all_dirs; cbn; lia|].
    split; [cbn; lia|]. split; [unfold in_int; cbn; lia|]. split; [cbn; lia|]. cbn [fill_zone z_data map sv_refs].
    destruct (sv_reg 1 0 (Ptr 1 0)) as (_ & _ & _ & _ & _ & _ & H0); [cbn; auto|].
    apply Forall_cons; [|apply Forall_cons; [|apply Forall_nil]]; apply H0; exact sv_tk1.
Qed.

Example sv_safe : xml_safe sv_full.
Proof.
  unfold sv_full. split.
  - unfold xml_plain. cbn [fill fill_zones sv_file f_name f_path f_title f_vars f_aux f_zones].
    split; [char_list|]. split; [char_list|]. split; [char_list|].
    split; [apply Forall_cons; [name_ex "u"%char ""%string|apply Forall_cons; [name_ex "v"%char ""%string|apply Forall_nil]]|].
    split; [repeat constructor|].
    apply Forall_cons; [|apply Forall_cons; [|apply Forall_nil]]; (split; [char_list|repeat constructor]).
  - unfold contents. cbn. all_ex not_blank.
Qed.

Example sv_out : exists s g, write_plt env_ex sv_full = Ret (s, g) tt /\ plt_path "." g = "./out.plt"%string.
Proof. eexists. eexists. split; vm_compute; reflexivity. Qed.

Definition sv_files (s : M_TecFile.fs) (xml : string) : files := fun p =>
  if String.eqb p "./out.plt" then disk s else if String.eqb p "out.xml" then Some (list_ascii_of_string xml) else None.
Example sv_conv : (forall bs, Z.of_nat (length bs) = 4 -> float_bits bs <> None) /\ (forall v, float_bits (le 4 v) = Some (v mod 2 ^ 32)).
Proof. split; [discriminate|]. intros v. unfold float_bits. now rewrite unle_le. Qed.

(** C61_state: component 0 of array 0 into component 1, component 1 into component 0, and array 1 into array 1.  The value 7 at face 2 of
    the 2D array arrives at the centre 2 of the other one. *)
Definition sv_moves : list move := [mkMove 0 0 0 "u" 0 1; mkMove 0 1 0 "v" 0 0; mkMove 1 0 1 "v" 1 0].
Example C61_state_ex : exists s g xml g' w2',
  write_plt env_ex sv_full = Ret (s, g) tt /\ xml_file g 0 = Ok xml /\ read_log (sv_files s xml) "out.xml" = Ok g' /\
  exec true (out_w ld_h) (map (fun m => ReadPlt (mv_to m) float_bits float_bits (sv_files s xml) "." g' (mv_zone m) (mv_name m) (mv_into m)) sv_moves) =
    Some (w2', [RDone; RDone; RDone]) /\
  reads w2' (ld_k 0) (ld_o 0) 1 [0] (Some 5) /\ reads w2' (ld_k 0) (ld_o 0) 0 [1] (Some 6) /\
  reads w2' (ld_k 0) (ld_o 0) 2 [1] (Some 8) /\ reads w2' (ld_k 1) (ld_o 1) 0 [0; 2] (Some 7).
Proof.
  destruct sv_out as (s & g & E & Ep). destruct sv_facts as (F0 & F1 & L0 & L1 & S0 & S1 & T0 & T1 & _ & _ & _ & _ & _ & Hps).
  apply Z.ltb_lt in Hps. assert (Hc : calm env_ex) by apply C41_ex.
  destruct (C43_log_round_trip env_ex sv_full s g tt 0 sv_wf Hps E Hc sv_safe begin_ex) as (xml & _ & EX & _ & _).
  assert (Hfs : sv_files s xml (plt_path "." g) = disk s) by now rewrite Ep.
  assert (SV : Forall (saved (out_w sv_h) (out_aw sv_h) CFloat 4 (le 4) sv_full) sv_moves).
  { assert (U : in_uint 0 /\ in_uint 1) by (unfold in_uint; lia).
    destruct (sv_reg 0 0 (Ptr 0 0)) as (_ & A1 & A2 & m0 & A3 & A4 & _); [cbn; auto|].
    destruct (sv_reg 0 1 (Ptr 0 4)) as (_ & B1 & B2 & m1 & B3 & B4 & _); [cbn; auto|].
    destruct (sv_reg 1 0 (Ptr 1 0)) as (_ & C1 & C2 & m2 & C3 & C4 & _); [cbn; auto|].
    apply Forall_cons; [|apply Forall_cons; [|apply Forall_cons; [|apply Forall_nil]]].
    - exists (sv_k 0), (sv_o 0), m0, (resolve (le 4) out_junk (heap (out_w sv_h)) (out_ref (Ptr 0 0))),
        (fill_zone (le 4) out_junk (heap (out_w sv_h)) (sv_zone 4 1) (sv_refs 0)), 0%nat. cbn [mv_from mv_comp mv_zone mv_name].
      split; [apply sv_healthy|]. split; [exact F0|]. split; [exact A1|]. split; [exact A2|]. split; [exact A3|]. split; [exact A4|].
      split; [apply U|]. split; [reflexivity|]. split; [exact sv_tk0|]. split; [|reflexivity]. split; [reflexivity|intros i Hi; lia].
    - exists (sv_k 0), (sv_o 0), m1, (resolve (le 4) out_junk (heap (out_w sv_h)) (out_ref (Ptr 0 4))),
        (fill_zone (le 4) out_junk (heap (out_w sv_h)) (sv_zone 4 1) (sv_refs 0)), 1%nat. cbn [mv_from mv_comp mv_zone mv_name].
      split; [apply sv_healthy|]. split; [exact F0|]. split; [exact B1|]. split; [exact B2|]. split; [exact B3|]. split; [exact B4|].
      split; [apply U|]. split; [reflexivity|]. split; [exact sv_tk0|]. split; [|reflexivity]. split; [reflexivity|intros [|i] Hi; [discriminate|lia]].
    - exists (sv_k 1), (sv_o 1), m2, (resolve (le 4) out_junk (heap (out_w sv_h)) (out_ref (Ptr 1 0))),
        (fill_zone (le 4) out_junk (heap (out_w sv_h)) (sv_zone 3 0) (sv_refs 1)), 1%nat. cbn [mv_from mv_comp mv_zone mv_name].
      split; [apply sv_healthy|]. split; [exact F1|]. split; [exact C1|]. split; [exact C2|]. split; [exact C3|]. split; [exact C4|].
      split; [apply U|]. split; [reflexivity|]. split; [exact sv_tk1|]. split; [|reflexivity]. split; [reflexivity|intros [|i] Hi; [discriminate|lia]]. }
  assert (TK : Forall (takes (out_w sv_h) (out_w ld_h) (out_aw ld_h)) sv_moves).
  { apply Forall_cons; [|apply Forall_cons; [|apply Forall_cons; [|apply Forall_nil]]].
    1,2: exists (sv_k 0), (sv_o 0), (ld_k 0), (ld_o 0); cbn [mv_from mv_to mv_into]; (split; [exact F0|]); (split; [exact L0|]);
      (split; [apply ld_healthy|]); (split; [cbn; lia|]); (split; [reflexivity|]); rewrite S0, T0; apply Forall2_cons; [cbn; lia|apply Forall2_nil].
    exists (sv_k 1), (sv_o 1), (ld_k 1), (ld_o 1). cbn [mv_from mv_to mv_into]. (split; [exact F1|]). (split; [exact L1|]).
    (split; [apply ld_healthy|]). (split; [cbn; lia|]). (split; [reflexivity|]). rewrite S1, T1. repeat (apply Forall2_cons; [cbn; lia|]). apply Forall2_nil. }
  assert (ND : NoDup (map (fun m => (mv_to m, mv_into m)) sv_moves)).
  { cbn. repeat (apply NoDup_cons; [cbn; intuition discriminate|]). apply NoDup_nil. }
  assert (sv_after0 : after nofail sv_h (out_w sv_h) (out_aw sv_h)) by (pose proof sv_after as Y; rewrite app_nil_r in Y; exact Y).
  destruct (C61_state float_bits float_bits nofail sv_h (out_w sv_h) (out_aw sv_h) nofail ld_h (out_w ld_h) (out_aw ld_h) sv_moves 4 float_bits (le 4)
    (fun v => v mod 2 ^ 32) CFloat env_ex sv_full s g tt (sv_files s xml) "." 0 xml "out.xml" sv_after0 ld_after (or_introl (conj eq_refl (conj eq_refl eq_refl)))
    (proj1 sv_conv) (proj2 sv_conv) sv_wf Hps E SV TK ND ltac:(intros i _; reflexivity) Hc sv_safe begin_ex Hfs EX eq_refl)
    as (g' & R & w2' & aw2' & _ & HE & Ho & Hv & Hu).
  exists s, g, xml, g', w2'. split; [exact E|]. split; [exact EX|]. split; [exact R|]. split; [exact HE|].
  assert (RD : forall a n q fl v, accepts (sv_k a) (m_size (sv_o a)) n q fl ->
     match m_at true (sv_k a) (heap (out_w sv_h)) (sv_o a) n q fl with Ok p => fetch (heap (out_w sv_h)) p | Err e => Err e | UB => UB end = Ok (Some v) ->
     reads (out_w sv_h) (sv_k a) (sv_o a) n (slot_of q fl) (Some v)).
  { clear. intros a n q fl v Ha H. destruct (m_at _ _ _ _ _ _ _) as [p| |] eqn:Ep; try discriminate H. exists q, fl, p. auto. }
  split; [|split; [|split]].
  - apply (Hv (mkMove 0 0 0 "u" 0 1) (sv_k 0) (sv_o 0) (ld_k 0) (ld_o 0) [0] 5); [now left|exact F0|exact L0| |].
    + exists (sv_k 0), (sv_o 0). split; [exact F0|]. rewrite S0. apply Forall2_cons; [cbn; lia|apply Forall2_nil].
    + apply (RD 0%nat 0 [0] [FC] 5); [unfold accepts; rewrite S0; cbn; lia|vm_compute; reflexivity].
  - apply (Hv (mkMove 0 1 0 "v" 0 0) (sv_k 0) (sv_o 0) (ld_k 0) (ld_o 0) [1] 6); [right; now left|exact F0|exact L0| |].
    + exists (sv_k 0), (sv_o 0). split; [exact F0|]. rewrite S0. apply Forall2_cons; [cbn; lia|apply Forall2_nil].
    + apply (RD 0%nat 1 [1] [FC] 6); [unfold accepts; rewrite S0; cbn; lia|vm_compute; reflexivity].
  - apply (Hu 0%nat (ld_k 0) (ld_o 0) 2 [1] (Some 8) L0 (ld_healthy 0)); [cbn; lia| | |].
    + rewrite T0. apply Forall2_cons; [cbn; lia|apply Forall2_nil].
    + intros m [<-|[<-|[<-|[]]]]; cbn [mv_to mv_into]; intros; lia.
    + exists [1], [FN]. eexists. split; [unfold accepts; rewrite T0; cbn; lia|]. split; [reflexivity|]. split; vm_compute; reflexivity.
  - apply (Hv (mkMove 1 0 1 "v" 1 0) (sv_k 1) (sv_o 1) (ld_k 1) (ld_o 1) [0; 2] 7); [right; right; now left|exact F1|exact L1| |].
    + exists (sv_k 1), (sv_o 1). split; [exact F1|]. rewrite S1. unfold corner. cbn. repeat (apply Forall2_cons; [cbn; lia|]). apply Forall2_nil.
    + apply (RD 1%nat 0 [0; 1] [FC; FP] 7); [unfold accepts; rewrite S1; cbn; lia|vm_compute; reflexivity].
Qed.

(** C61_array: both components of array 0 into components 0 and 1 of the other program's array 0, which has three. *)
Example C61_array_ex : exists s g xml g' w2',
  write_refs (le 4) out_junk env_ex (heap (out_w sv_h)) sv_file sv_refs = Ret (s, g) tt /\ xml_file g 0 = Ok xml /\
  read_log (sv_files s xml) "out.xml" = Ok g' /\
  exec true (out_w ld_h) (map (fun n => ReadPlt 0 float_bits float_bits (sv_files s xml) "." g' 0 (if n =? 0 then "u" else "v") n) (components 2)) =
    Some (w2', [RDone; RDone]) /\
  reads w2' (ld_k 0) (ld_o 0) 0 [0] (Some 5) /\ reads w2' (ld_k 0) (ld_o 0) 1 [1] (Some 6).
Proof.
  destruct sv_out as (s & g & E & Ep). destruct sv_facts as (F0 & F1 & L0 & L1 & S0 & S1 & T0 & T1 & D0 & _ & P0 & P1 & _ & Hps).
  apply Z.ltb_lt in Hps. assert (Hc : calm env_ex) by apply C41_ex.
  destruct (C43_log_round_trip env_ex sv_full s g tt 0 sv_wf Hps E Hc sv_safe begin_ex) as (xml & _ & EX & _ & _).
  assert (Hfs : sv_files s xml (plt_path "." g) = disk s) by now rewrite Ep.
  assert (sv_after0 : after nofail sv_h (out_w sv_h) (out_aw sv_h)) by (pose proof sv_after as Y; rewrite app_nil_r in Y; exact Y).
  assert (D : o_data (sv_o 0) <> Null) by (intros X; rewrite X in D0; discriminate D0).
  destruct (C61_array float_bits float_bits nofail sv_h [] (out_w sv_h) (out_w sv_h) (out_aw sv_h) (out_aw sv_h) 0 (sv_k 0) (sv_o 0)
    nofail ld_h (out_w ld_h) (out_aw ld_h) 0 (ld_k 0) (ld_o 0) 4 float_bits (le 4) out_junk (fun v => v mod 2 ^ 32) CFloat env_ex sv_file sv_refs
    s g tt 0 (sv_zone 4 1) (fun n => if (n =? 0)%Z then "u" else "v")%string Z.to_nat (sv_files s xml) "." 0 xml "out.xml"
    sv_after0 (sv_healthy 0) F0 D) as (g' & R & w2' & aw2' & _ & HE & _ & Hv & _).
  - unfold in_uint. lia.
  - reflexivity.
  - exact sv_tk0.
  - intros n Hn. assert (C : n = 0 \/ n = 1) by (cbn in Hn; lia). destruct C as [->| ->].
    + exists (Ptr 0 0), (out_ref (Ptr 0 0)). split; [exact P0|]. split; [reflexivity|]. split; [reflexivity|]. split; [reflexivity|intros i Hi; change (Z.to_nat 0) with 0%nat in Hi; lia].
    + exists (Ptr 0 4), (out_ref (Ptr 0 4)). split; [exact P1|]. split; [reflexivity|]. split; [reflexivity|].
      split; [reflexivity|]. change (Z.to_nat 1) with 1%nat. intros [|i] Hi; [discriminate|lia].
  - exact out_encodes.
  - exact sv_after.
  - intros c [].
  - exact ld_after.
  - apply ld_healthy.
  - exact L0.
  - cbn. lia.
  - reflexivity.
  - rewrite S0, T0. apply Forall2_cons; [cbn; lia|apply Forall2_nil].
  - auto.
  - exact (proj1 sv_conv).
  - exact (proj2 sv_conv).
  - exact sv_wf.
  - exact Hps.
  - exact E.
  - intros i _. reflexivity.
  - exact Hc.
  - exact sv_safe.
  - exact begin_ex.
  - exact Hfs.
  - exact EX.
  - reflexivity.
  - exists s, g, xml, g', w2'. split; [exact E|]. split; [exact EX|]. split; [exact R|]. split; [exact HE|].
    assert (RD : forall n q fl v, accepts (sv_k 0) (m_size (sv_o 0)) n q fl ->
       match m_at true (sv_k 0) (heap (out_w sv_h)) (sv_o 0) n q fl with Ok p => fetch (heap (out_w sv_h)) p | Err e => Err e | UB => UB end = Ok (Some v) ->
       reads (out_w sv_h) (sv_k 0) (sv_o 0) n (slot_of q fl) (Some v)).
    { clear. intros n q fl v Ha H. destruct (m_at _ _ _ _ _ _ _) as [p| |] eqn:Ep; try discriminate H. exists q, fl, p. auto. }
    split.
    + apply (Hv 0 [0] 5); [cbn; lia|rewrite S0; apply Forall2_cons; [cbn; lia|apply Forall2_nil]|].
      apply (RD 0 [0] [FC] 5); [unfold accepts; rewrite S0; cbn; lia|vm_compute; reflexivity].
    + apply (Hv 1 [1] 6); [cbn; lia|rewrite S0; apply Forall2_cons; [cbn; lia|apply Forall2_nil]|].
      apply (RD 1 [1] [FC] 6); [unfold accepts; rewrite S0; cbn; lia|vm_compute; reflexivity].
Qed.
