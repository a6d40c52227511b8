(** Property C60: arrays registered for output.

    Reading guide (see also P_Access.v, P_TecFile.v and P_Read.v).  A program [h1] of calls on the arrays leads to the world
    [w]; there [data_pt(n)] of array [a] gives the pointer [p], from which TEC_DATA is constructed ([ref_of t p = Ok r])
    and pushed back to the vector Data of a zone ([rs i] are the TEC_DATA of zone [i]).  The program goes on with [h2] to the
    world [w1], and calls write_plt ([write_refs enc junk e (heap w1) f rs]: the description [f] with the memory its TEC_DATA
    point to at that moment).  [frees c a]: call [c] ends the life of the elements of [a]. *)

From Coq Require Import ZArith Ascii String List Bool Lia.
From Verif Require Import Base M_Flags M_Bytes M_TecZone M_TecFile Spec_Tec Spec_Plt P_TecFile
  M_Loop M_RS1 M_RS2 M_RS3 M_Heap M_PD1 M_PD2 M_PD3 M_World M_Read
  Spec Spec_Loop Spec_Array Spec_Hist Spec_Reach Spec_Read L_Plt L_Round L_Access P_Access P_Read M_Output Spec_Output L_Output.
Import ListNotations.
Open Scope list_scope.
Open Scope Z_scope.

(** Whatever the program does to this array and others short of ending the life of the elements: the pointer stays good, and
    at the time of write_plt it has the elements of that moment, enough of them for a zone which takes the interior. *)
Theorem C60_stays {V} F h1 h2 (w w1 : world V) aw aw1 a k o n p (enc : V -> bytes) junk t wd r :
  after F h1 w aw -> healthy aw a -> find w a = Some (k, o) -> o_data o <> Null -> 0 <= n < k_N k ->
  m_data_pt true k (heap w) o n = Ok p -> ref_of t p = Ok r -> encodes t wd enc junk ->
  after F (h1 ++ h2) w1 aw1 -> (forall c, In c h2 -> frees c a = false) ->
  find w1 a = Some (k, o) /\ healthy aw1 a /\ m_data_pt true k (heap w1) o n = Ok p /\
  exists mem, d_mem (resolve enc junk (heap w1) r) = Some mem /\ image w1 k o n wd enc mem /\
    forall z, takes_interior (k_locs k) (m_size o) z -> data_wf z (resolve enc junk (heap w1) r).
Proof. exact (registered_stays F h1 h2 w w1 aw aw1 a k o n p enc junk t wd r). Qed.
Print Assumptions C60_stays.

(** So the file has the values the array has when write_plt is called: reading it back into array [a2] of another program
    gives, at every point, what [a] reads in [w1], whatever it read when it was registered. *)
Theorem C60_current {V1 V2} chk (of_float of_double : bytes -> option V2)
    F h1 h2 (w w1 : world V1) aw aw1 a k o n p (enc : V1 -> bytes) junk r
    F2 h2' (w2 : world V2) aw2 a2 k2 o2 n2 wd dec (cast : V1 -> V2) t e f rs s g u zi z name vv fs root live :
  after F h1 w aw -> healthy aw a -> find w a = Some (k, o) -> o_data o <> Null -> 0 <= n < k_N k ->
  m_data_pt true k (heap w) o n = Ok p -> ref_of t p = Ok r -> encodes t wd enc junk ->
  after F (h1 ++ h2) w1 aw1 -> (forall c, In c h2 -> frees c a = false) ->
  after F2 h2' w2 aw2 -> healthy aw2 a2 -> find w2 a2 = Some (k2, o2) -> 0 <= n2 < k_N k2 ->
  length (k_locs k2) = length (k_locs k) ->
  Forall2 size_in (m_size o2) (inner (k_locs k) (m_size o)) ->
  (t = CFloat /\ wd = 4 /\ dec = of_float \/ t = CDouble /\ wd = 8 /\ dec = of_double) ->
  (forall bs, Z.of_nat (length bs) = wd -> dec bs <> None) -> (forall v, dec (enc v) = Some (cast v)) ->
  file_wf (fill enc junk (heap w1) f rs) -> plt_size (fill enc junk (heap w1) f rs) < 2 ^ 63 ->
  0 <= zi -> nth_error (f_zones f) (Z.to_nat zi) = Some z -> takes_interior (k_locs k) (m_size o) z ->
  first_at (f_vars f) name vv -> nth_error (rs (Z.to_nat zi)) vv = Some r ->
  write_refs enc junk e (heap w1) f rs = Ret (s, g) u -> fs (plt_path root g) = disk s -> F2 (tick (heap w2)) = false ->
  exists w2' val,
    m_read_plt chk of_float of_double k2 fs root g zi name n2 o2 (heap w2, live) = Ret (heap w2', live) tt /\
    overwritten aw2 w2 w2' k2 a2 o2 n2 (inner (k_locs k) (m_size o)) val /\
    forall q v, in_box (corner (inner (k_locs k) (m_size o))) q -> reads w1 k o n q (Some v) -> val q = Some (cast v).
Proof.
  intros HA HH Hf Hd Hn Hp Hr He HB Hx A2 H2 Hf2 Hc2 HK HS Ht Hdec Hed Hw Hps Hzi Hz Htk Hv Hrv Ew Hfs Hmem.
  destruct (registered_stays F h1 h2 w w1 aw aw1 a k o n p enc junk t wd r HA HH Hf Hd Hn Hp Hr He HB Hx)
    as (Hf1 & HH1 & _ & mem & Em & Himg & _).
  pose proof (ref_inv _ _ _ Hr) as [_ Ed].
  assert (Edr : data_of t (Some mem) = Ok (resolve enc junk (heap w1) r)) by (rewrite Ed; unfold resolve; cbn [d_mem resolve] in Em; now rewrite Em).
  assert (Ev : nth_error (z_data (fill_zone enc junk (heap w1) z (rs (Z.to_nat zi)))) vv = Some (resolve enc junk (heap w1) r)).
  { cbn [fill_zone z_data]. now apply map_nth_error. }
  exact (round_trip chk of_float of_double F (h1 ++ h2) w1 aw1 a k o n F2 h2' w2 aw2 a2 k2 o2 n2
    wd dec enc cast mem t (resolve enc junk (heap w1) r) e (fill enc junk (heap w1) f rs) s g u zi
    (fill_zone enc junk (heap w1) z (rs (Z.to_nat zi))) name vv fs root live
    HB HH1 Hf1 Hd Hn A2 H2 Hf2 Hc2 HK HS Ht Hdec Hed Himg Edr Hw Hps Hzi
    (fill_zones_nth enc junk (heap w1) rs (f_zones f) 0 (Z.to_nat zi) z Hz) Htk Hv Ev Ew Hfs Hmem).
Qed.
Print Assumptions C60_current.

(** If the elements are gone by then (clear, a realloc that is not refused, the destructor), no byte can be read through the
    pointer: write_plt does not return, and unless it throws for another reason its behaviour is undefined.  There is no way
    for the library to refuse. *)
Theorem C60_gone {V} F h1 h2 (w w1 : world V) aw aw1 a k o n p (enc : V -> bytes) junk t r e f rs i z :
  after F h1 w aw -> healthy aw a -> find w a = Some (k, o) -> o_data o <> Null -> 0 <= n < k_N k ->
  m_data_pt true k (heap w) o n = Ok p -> ref_of t p = Ok r ->
  after F (h1 ++ h2) w1 aw1 -> (exists c, In c h2 /\ frees c a = true) ->
  Forall zone_fits (f_zones f) -> (forall j, Forall (fun r => exists t p, ref_of t p = Ok r) (rs j)) ->
  nth_error (f_zones f) i = Some z -> In r (rs i) ->
  (forall s u, write_refs enc junk e (heap w1) f rs <> Ret s u) /\
  (~ refused (fill enc junk (heap w1) f rs) -> plenty e -> write_refs enc junk e (heap w1) f rs = Undef).
Proof.
  intros HA HH Hf Hd Hn Hp Hr HB Hx HZ HR Hi Hin. eapply empty_refs; eauto.
  rewrite (proj1 (ref_inv _ _ _ Hr)).
  exact (pointee_gone enc junk F h1 h2 w aw w1 aw1 a k o n p HA HB HH Hf Hd Hn Hp Hx).
Qed.
Print Assumptions C60_gone.

(** A null pointer is kept as well: the description is refused in every later state of the memory. *)
Theorem C60_null {V} (m : mem V) (enc : V -> bytes) junk t r e f rs i z :
  ref_of t Null = Ok r -> nth_error (f_zones f) i = Some z -> In r (rs i) ->
  refused (fill enc junk m f rs) /\
  (file_wf (fill enc junk m f rs) -> plt_size (fill enc junk m f rs) < 2 ^ 63 ->
   exists s g msg, write_refs enc junk e m f rs = Thr (s, g) (ETec msg) /\ fl_error g = msg /\ disk s = None).
Proof.
  intros Hr Hi Hin. pose proof (null_refs enc junk m f rs i z r Hi Hin (proj1 (ref_inv _ _ _ Hr))) as X. split; [exact X|].
  intros Hw Hs. destruct (C42_refused e (fill enc junk m f rs) Hw (or_introl X) Hs) as (s & g & msg & E & H1 & H2 & _).
  exists s, g, msg. auto.
Qed.
Print Assumptions C60_null.

(** ** Examples *)

(** A 1D array of two components (bit patterns of float), with one point before and one after the two of the interior; component 1
    is registered.  After that it is written to, memory is refused twice, and other arrays come and go. *)
Definition out_h1 : list (op Z) := [NewSized (K1 2 center) [(1, 2, 1)]; Write 0 1 [0] [FC] 5; Write 0 1 [1] [FC] 6; Write 0 1 [-1] [FC] 9].
Definition out_h2 : list (op Z) :=
  [Write 0 1 [0] [FC] 7; Alloc 0 [(0, 3, 0)]; Realloc 0 [(1, 0, 1)]; NewSized (K2 1 center half) [(0, 1, 0); (0, 1, 0)]; Clear 1; Destroy 1].
Definition out_w (h : list (op Z)) : world Z := match exec true (start nofail) h with Some (w, _) => w | None => start nofail end.
Definition out_aw (h : list (op Z)) : aworld Z := fst (aexec nofail a_start h).
Definition out_k : kind := K1 2 center.
Definition out_o : obj := match find (out_w out_h1) 0 with Some (_, o) => o | None => O1 (mkPD1 (mkSize1 0 0 0) Null []) end.
Definition out_ref (p : ptr) : tref := mkRef TEC_FLOAT 4 p.
Definition out_zone : zone := mkZone "z" (-1) 0 (mk3 4 1 1) (mk3 1 1 1) (mk3 1 0 0) (mk3 1 0 0) [] [] 0.
Definition out_file : tfile := mkFile "." "out" "t" ["u"]%string 0 [] [out_zone] 0.
Definition out_refs (p : ptr) : nat -> list tref := fun _ => [out_ref p].
Definition out_junk (b : nat) (i : Z) : bytes := le 4 i.

Example out_after1 : after nofail out_h1 (out_w out_h1) (out_aw out_h1).
Proof. split; [legal_tac|]. split; [reflexivity|]. eexists. vm_compute. reflexivity. Qed.
Example out_after2 : after nofail (out_h1 ++ out_h2) (out_w (out_h1 ++ out_h2)) (out_aw (out_h1 ++ out_h2)).
Proof. split; [legal_tac|]. split; [reflexivity|]. eexists. vm_compute. reflexivity. Qed.
Example out_after3 : after nofail (out_h1 ++ (out_h2 ++ [Realloc 0 [(1, 2, 1)]])) (out_w (out_h1 ++ (out_h2 ++ [Realloc 0 [(1, 2, 1)]])))
  (out_aw (out_h1 ++ (out_h2 ++ [Realloc 0 [(1, 2, 1)]]))).
Proof. split; [legal_tac|]. split; [reflexivity|]. eexists. vm_compute. reflexivity. Qed.
Example out_healthy : healthy (out_aw out_h1) 0.
Proof. intros k gs nb. vm_compute. discriminate. Qed.
Example out_encodes : encodes CFloat 4 (le 4) out_junk.
Proof. split; [eexists; split; reflexivity|]. split; intros; reflexivity. Qed.

Example out_facts :
  find (out_w out_h1) 0 = Some (out_k, out_o) /\ m_size out_o = [(1, 2, 1)] /\ is_null (o_data out_o) = false /\
  m_data_pt true out_k (heap (out_w out_h1)) out_o 1 = Ok (Ptr 0 4) /\
  forallb (fun c => negb (frees c 0)) out_h2 = true /\
  d_mem (resolve (le 4) out_junk (heap (out_w (out_h1 ++ out_h2))) (out_ref (Ptr 0 4))) = Some (le 4 9 ++ le 4 7 ++ le 4 6 ++ le 4 7).
Proof. vm_compute. repeat split. Qed.

(** C60_stays: its hypotheses hold for this program, and write_plt finds 7, not 5. *)
Example C60_stays_ex : exists mem,
  d_mem (resolve (le 4) out_junk (heap (out_w (out_h1 ++ out_h2))) (out_ref (Ptr 0 4))) = Some mem /\
  image (out_w (out_h1 ++ out_h2)) out_k out_o 1 4 (le 4) mem /\ element 4 mem 1 = le 4 7 /\
  data_wf out_zone (resolve (le 4) out_junk (heap (out_w (out_h1 ++ out_h2))) (out_ref (Ptr 0 4))).
Proof.
  destruct out_facts as (Hf & Hs & Hd & Hp & Hx & Hm).
  destruct (C60_stays nofail out_h1 out_h2 (out_w out_h1) (out_w (out_h1 ++ out_h2)) (out_aw out_h1) (out_aw (out_h1 ++ out_h2)) 0 out_k out_o 1
    (Ptr 0 4) (le 4) out_junk CFloat 4 (out_ref (Ptr 0 4)) out_after1 out_healthy Hf) as (_ & _ & _ & mem & E & Hi & Hz).
  - intros E. rewrite E in Hd. discriminate Hd.
  - cbn. lia.
  - exact Hp.
  - reflexivity.
  - exact out_encodes.
  - exact out_after2.
  - intros c Hc. rewrite forallb_forall in Hx. apply Hx in Hc. destruct (frees c 0); [discriminate Hc|reflexivity].
  - exists mem. rewrite Hm in E. injection E as <-. split; [exact Hm|]. split; [exact Hi|]. split; [reflexivity|].
    apply Hz. rewrite Hs. repeat split.
Qed.

(** "The file has the values the array had when it was registered" is false: here it is 5 then, and 7 is in the file, where the log says
    the variable begins. *)
Definition out_written : option (bytes * Z) :=
  match write_refs (le 4) out_junk env_ex (heap (out_w (out_h1 ++ out_h2))) out_file (out_refs (Ptr 0 4)) with
  | Ret (s, g) _ =>
      match disk s, fl_zones g with
      | Some b, zl :: _ => match zl_data zl with d :: _ => Some (b, dl_pt d) | [] => None end
      | _, _ => None
      end
  | _ => None
  end.
Theorem C60_snapshot_refuted : exists b pos,
  after nofail out_h1 (out_w out_h1) (out_aw out_h1) /\ after nofail (out_h1 ++ out_h2) (out_w (out_h1 ++ out_h2)) (out_aw (out_h1 ++ out_h2)) /\
  m_data_pt true out_k (heap (out_w out_h1)) out_o 1 = Ok (Ptr 0 4) /\ ref_of CFloat (Ptr 0 4) = Ok (out_ref (Ptr 0 4)) /\
  reads (out_w out_h1) out_k out_o 1 [0] (Some 5) /\
  out_written = Some (b, pos) /\ firstn 8 (skipn (Z.to_nat pos) b) = le 4 7 ++ le 4 6.
Proof.
  assert (X : match out_written with Some (b, pos) => firstn 8 (skipn (Z.to_nat pos) b) = le 4 7 ++ le 4 6 | None => False end)
    by (vm_compute; reflexivity).
  destruct out_written as [[b pos]|]; [|destruct X]. exists b, pos.
  split; [exact out_after1|]. split; [exact out_after2|]. split; [apply out_facts|]. split; [reflexivity|]. split; [|auto].
  exists [0], [FC]. eexists. split; [|split; [reflexivity|split; vm_compute; reflexivity]].
  unfold accepts. rewrite (proj1 (proj2 out_facts)). cbn. lia.
Qed.
Print Assumptions C60_snapshot_refuted.

(** C60_current: the file can be read back into a 1D array of another program. *)
Example out_wf : file_wf (fill (le 4) out_junk (heap (out_w (out_h1 ++ out_h2))) out_file (out_refs (Ptr 0 4))).
Proof.
  destruct C60_stays_ex as (mem & _ & _ & _ & H). unfold file_wf. cbn [fill f_type f_vars f_zones out_file fill_zones length].
  split; [unfold in_int; lia|]. split; [cbn; lia|]. split; [cbn; lia|]. apply Forall_cons; [|apply Forall_nil].
  unfold zone_wf. split; [unfold all_dirs, dir_ints, in_int; cbn; lia|]. split; [unfold all_dirs; cbn; lia|].
  split; [cbn; lia|]. split; [unfold in_int; cbn; lia|]. split; [cbn; lia|]. apply Forall_cons; [exact H|apply Forall_nil].
Qed.
Definition in_h : list (op Z) := [NewSized (K1 1 half) [(0, 2, 0)]; Write 0 0 [2] [FN] 3].
Example in_after : after nofail in_h (out_w in_h) (out_aw in_h).
Proof. split; [legal_tac|]. split; [reflexivity|]. eexists. vm_compute. reflexivity. Qed.
Definition in_o : obj := match find (out_w in_h) 0 with Some (_, o) => o | None => O1 (mkPD1 (mkSize1 0 0 0) Null []) end.

Example C60_current_ex : exists s g w2' val,
  write_refs (le 4) out_junk env_ex (heap (out_w (out_h1 ++ out_h2))) out_file (out_refs (Ptr 0 4)) = Ret (s, g) tt /\
  m_read_plt true float_bits float_bits (K1 1 half) (fun p => if String.eqb p "./out.plt" then disk s else None) "." g 0 "u" 0 in_o
    (heap (out_w in_h), 0) = Ret (heap w2', 0) tt /\
  overwritten (out_aw in_h) (out_w in_h) w2' (K1 1 half) 0 in_o 0 [2] val /\ val [0] = Some 7.
Proof.
  assert (E : exists s g, write_refs (le 4) out_junk env_ex (heap (out_w (out_h1 ++ out_h2))) out_file (out_refs (Ptr 0 4)) = Ret (s, g) tt /\
    plt_path "." g = "./out.plt"%string) by (eexists; eexists; split; vm_compute; reflexivity).
  destruct E as (s & g & E & Ep). exists s, g.
  destruct out_facts as (Hf & Hs & Hd & Hp & Hx & Hm).
  assert (Hin : inner (k_locs out_k) (m_size out_o) = [2]) by (rewrite Hs; reflexivity).
  assert (Hfs : (fun p => if String.eqb p "./out.plt" then disk s else None) (plt_path "." g) = disk s) by now rewrite Ep.
  destruct (C60_current true float_bits float_bits nofail out_h1 out_h2 (out_w out_h1) (out_w (out_h1 ++ out_h2)) (out_aw out_h1)
    (out_aw (out_h1 ++ out_h2)) 0 out_k out_o 1 (Ptr 0 4) (le 4) out_junk (out_ref (Ptr 0 4))
    nofail in_h (out_w in_h) (out_aw in_h) 0 (K1 1 half) in_o 0 4 float_bits (fun v => v mod 2 ^ 32) CFloat env_ex out_file (out_refs (Ptr 0 4))
    s g tt 0 out_zone "u" 0 (fun p => if String.eqb p "./out.plt" then disk s else None) "." 0 out_after1 out_healthy Hf)
    as (w2' & val & R1 & R2 & R3).
  - intros X. rewrite X in Hd. discriminate Hd.
  - cbn. lia.
  - exact Hp.
  - reflexivity.
  - exact out_encodes.
  - exact out_after2.
  - intros c Hc. rewrite forallb_forall in Hx. apply Hx in Hc. destruct (frees c 0); [discriminate Hc|reflexivity].
  - exact in_after.
  - intros k gs nb. vm_compute. discriminate.
  - vm_compute. reflexivity.
  - cbn. lia.
  - reflexivity.
  - rewrite Hin. replace (m_size in_o) with [(0, 2, 0)] by (vm_compute; reflexivity). apply Forall2_cons; [cbn; lia|apply Forall2_nil].
  - left. auto.
  - intros bs _. discriminate.
  - intros v. unfold float_bits. now rewrite unle_le.
  - exact out_wf.
  - vm_compute. reflexivity.
  - lia.
  - reflexivity.
  - rewrite Hs. repeat split.
  - split; [reflexivity|intros i Hi; lia].
  - reflexivity.
  - exact E.
  - exact Hfs.
  - reflexivity.
  - exists w2', val. rewrite Hin in R2, R3. split; [exact E|]. split; [exact R1|]. split; [exact R2|]. apply (R3 [0] 7); [unfold corner; cbn; apply Forall2_cons; [cbn; lia|apply Forall2_nil]|].
    exists [0], [FC]. eexists. split; [|split; [reflexivity|split; vm_compute; reflexivity]].
    unfold accepts. rewrite Hs. cbn. lia.
Qed.

(** C60_gone: a realloc to the same size comes between.  The hypotheses hold, and the description is not refused. *)
Example C60_gone_ex : write_refs (le 4) out_junk env_ex (heap (out_w (out_h1 ++ (out_h2 ++ [Realloc 0 [(1, 2, 1)]])))) out_file (out_refs (Ptr 0 4)) = Undef.
Proof.
  destruct out_facts as (Hf & Hs & Hd & Hp & Hx & Hm).
  destruct (C60_gone nofail out_h1 (out_h2 ++ [Realloc 0 [(1, 2, 1)]]) (out_w out_h1) (out_w (out_h1 ++ (out_h2 ++ [Realloc 0 [(1, 2, 1)]])))
    (out_aw out_h1) (out_aw (out_h1 ++ (out_h2 ++ [Realloc 0 [(1, 2, 1)]]))) 0 out_k out_o 1 (Ptr 0 4) (le 4) out_junk CFloat (out_ref (Ptr 0 4))
    env_ex out_file (out_refs (Ptr 0 4)) 0 out_zone out_after1 out_healthy Hf) as [_ X].
  - intros E. rewrite E in Hd. discriminate Hd.
  - cbn. lia.
  - exact Hp.
  - reflexivity.
  - exact out_after3.
  - exists (Realloc 0 [(1, 2, 1)]). split; [apply in_or_app; right; now left|reflexivity].
  - apply Forall_cons; [|apply Forall_nil]. split; [unfold all_dirs, dir_fits; cbn; lia|cbn; lia].
  - intros j. apply Forall_cons; [exists CFloat, (Ptr 0 4); reflexivity|apply Forall_nil].
  - reflexivity.
  - now left.
  - apply X.
    + assert (Y : d_mem (resolve (le 4) out_junk (heap (out_w (out_h1 ++ (out_h2 ++ [Realloc 0 [(1, 2, 1)]])))) (out_ref (Ptr 0 4))) <> None)
        by (vm_compute; discriminate).
      intros [R|[R|(y & [<-|[]] & R)]]; [discriminate R|discriminate R|]. destruct R as [R|[R|[R|(d & [<-|[]] & R)]]].
      * revert R. unfold some_dir, dir_bad. cbn. lia.
      * discriminate R.
      * now apply R.
      * now apply Y.
    + split; [reflexivity|intros; reflexivity].
Qed.

(** C60_null: data_pt of a 1D array that has no elements is a null pointer; allocating them later does not help. *)
Definition null_h1 : list (op Z) := [New (K1 2 center)].
Definition null_h2 : list (op Z) := [Alloc 0 [(1, 2, 1)]; Write 0 1 [0] [FC] 5].
Example C60_null_ex :
  match find (out_w null_h1) 0 with Some (k, o) => m_data_pt true k (heap (out_w null_h1)) o 1 | None => UB end = Ok Null /\
  ref_of CFloat Null = Ok (out_ref Null) /\
  match write_refs (le 4) out_junk env_ex (heap (out_w (null_h1 ++ null_h2))) out_file (out_refs Null) with
  | Thr (s, g) (ETec m) => disk s = None /\ m = "File(out).Zone(z).Variable(u): Data is unset"%string
  | _ => False
  end.
Proof. vm_compute. repeat split. Qed.
