(** C62: Example_D2_heat and the file it leaves behind.

    The program fills two arrays, describes the first one for Tecplot, takes the addresses of the components of both, goes
    on computing, and writes the file at the end.  What is in the file are the values of the scheme, and another program can
    load them. *)

From Coq Require Import ZArith Ascii String List Bool Lia.
From Verif Require Import Base M_Flags M_Loop M_RS1 M_RS2 M_RS3 M_Bytes M_TecZone M_TecFile M_ReadXml M_LogFiles M_Client M_Examples
  Spec_Tec Spec_Plt Spec_Xml Spec_LogFiles P_TecFile
  M_Heap M_PD1 M_PD2 M_PD3 M_World M_Read M_Describe M_Output M_HeatFile
  Spec Spec_Loop Spec_Array Spec_Hist Spec_Reach Spec_Client Spec_Read Spec_Describe Spec_Output Spec_HeatFile L_HeatFile L_Plt P_Access P_Read P_Client P_Xml.
Import ListNotations.
Open Scope list_scope.
Open Scope Z_scope.

Section HeatFile.
Context {V : Type}.

Theorem C62_file F chk strict Nx Ny (enc : V -> bytes) junk can e reps k (xf yf : Z -> V) ini exact neg lapx lapy adv (d : M_LogFiles.files) :
  2 <= Nx -> 2 <= Ny -> 2 * ((Nx + 2) * (Ny + 2)) < UINT_MOD -> 1 <= reps < UINT_MOD -> (forall t, (t < 6)%nat -> F t = false) ->
  encodes CDouble 8 enc junk -> plenty e -> calm e -> can "./untitled_file.xml"%string = true ->
  exists w d' l b p z,
    heat2_file chk strict enc junk can e Nx Ny reps k xf yf ini exact neg lapx lapy adv (start F, (d, fun _ => no_log)) = Ret (w, (d', l)) tt /\
    d' "./untitled_file.plt"%string = Some b /\ parse_plt b = Some p /\
    p_vars p = ["x"; "y"; "u1"; "u2"]%string /\ p_zones p = [z] /\ h_size (pz_head z) = [Ny; Nx; 1] /\
    Forall2 (has_values enc Nx Ny) (pz_vars z)
      [fun i _ => xf i; fun _ j => yf j; Nat.iter k (heat_step2 Nx Ny neg lapx lapy adv) (fun i j => ini (xf i) (yf j));
       fun i j => exact (xf i) (yf j)] /\
    forall q, q <> "./untitled_file.plt"%string -> q <> "./untitled_file.xml"%string -> d' q = d q.
Proof.
  intros HNx HNy HN Hr HF He Hp Hc Hx.
  exact (heat_file F chk strict Nx Ny HNx HNy HN enc junk He can e reps k xf yf ini exact neg lapx lapy adv Hr HF Hp Hc Hx d).
Qed.
Print Assumptions C62_file.

Theorem C62_load {V2} F chk strict Nx Ny (enc : V -> bytes) junk can e reps k (xf yf : Z -> V) ini exact neg lapx lapy adv (d : M_LogFiles.files)
    w (d' : M_LogFiles.files) l chk2 (of_float of_double : bytes -> option V2) (cast : V -> V2) F2 h2 (w2 : world V2) aw2 a2 k2 o2 n2 live v name x :
  2 <= Nx -> 2 <= Ny -> 2 * ((Nx + 2) * (Ny + 2)) < UINT_MOD -> 1 <= reps < UINT_MOD -> (forall t, (t < 6)%nat -> F t = false) ->
  encodes CDouble 8 enc junk -> plenty e -> calm e -> can "./untitled_file.xml"%string = true -> plain_text (e_begin e) ->
  heat2_file chk strict enc junk can e Nx Ny reps k xf yf ini exact neg lapx lapy adv (start F, (d, fun _ => no_log)) = Ret (w, (d', l)) tt ->
  (forall bs, Z.of_nat (length bs) = 8 -> of_double bs <> None) -> (forall y, of_double (enc y) = Some (cast y)) ->
  after F2 h2 w2 aw2 -> healthy aw2 a2 -> find w2 a2 = Some (k2, o2) -> 0 <= n2 < k_N k2 -> length (k_locs k2) = 2%nat ->
  Forall2 size_in (m_size o2) [Nx; Ny] -> F2 (tick (heap w2)) = false ->
  nth_error ["x"; "y"; "u1"; "u2"]%string v = Some name ->
  nth_error [fun i _ => xf i; fun _ j => yf j; Nat.iter k (heat_step2 Nx Ny neg lapx lapy adv) (fun i j => ini (xf i) (yf j));
             fun i j => exact (xf i) (yf j)] v = Some x ->
  exists g' (w2' : world V2) val,
    read_log d' "./untitled_file.xml" = Ok g' /\
    m_read_plt chk2 of_float of_double k2 d' "." g' 0 name n2 o2 (heap w2, live) = Ret (heap w2', live) tt /\
    overwritten aw2 w2 w2' k2 a2 o2 n2 [Nx; Ny] val /\
    forall i j, 0 <= i < Nx -> 0 <= j < Ny -> val [i; j] = Some (cast (x i j)).
Proof.
  intros HNx HNy HN Hr HF He Hp Hc Hx Hb E Hdec Hcast A2 H2 Hf2 Hn2 HK HS Hmem Hv Hval.
  destruct (heat_load F chk strict Nx Ny HNx HNy HN enc junk He can e reps k xf yf ini exact neg lapx lapy adv Hr HF Hp Hc Hx d w d' l chk2
    of_float of_double cast F2 h2 w2 aw2 a2 k2 o2 n2 v name live E Hb Hdec Hcast A2 H2 Hf2 Hn2 HK HS Hmem Hv) as (g' & w2' & val & R1 & R2 & R3 & R4).
  exists g', w2', val. split; [exact R1|]. split; [exact R2|]. split; [exact R3|]. intros i j Hi Hj. rewrite (R4 i j Hi Hj).
  destruct v as [|[|[|[|v]]]]; cbn in Hval; try (injection Hval as <-; reflexivity). destruct v; discriminate Hval.
Qed.
Print Assumptions C62_load.
End HeatFile.

(** ** Examples *)

(** Two steps on a 3 x 2 grid. *)
Definition hx_junk (b : nat) (i : Z) : bytes := le 8 i.
Definition hx_xf (i : Z) : Z := 10 * i.
Definition hx_yf (j : Z) : Z := 7 * j.
Definition hx_step := heat_step2 3 2 Z.opp (fun a b c => a - 2 * b + c) (fun d a b c => d + (a - 2 * b + c)) (fun u d => 10 * u + d).
Notation hx_run :=
  (heat2_file true true (le 8) hx_junk (fun _ => true) env_ex 3 2 1 2 hx_xf hx_yf (fun x y => x + y + 5) (fun x y => x * y) Z.opp
    (fun a b c => a - 2 * b + c) (fun d a b c => d + (a - 2 * b + c)) (fun u d => 10 * u + d) (start nofail, (fun _ => None, fun _ => no_log))).

Example hx_encodes : encodes CDouble 8 (le 8) hx_junk.
Proof. split; [eexists; split; reflexivity|]. split; intros; reflexivity. Qed.
Example hx_env : plenty env_ex /\ calm env_ex /\ plain_text (e_begin env_ex).
Proof. split; [split; [reflexivity|intros; reflexivity]|]. split; [apply C41_ex|exact begin_ex]. Qed.

(** The values the file has for u1: the start values are 5 + x + y. *)
Example hx_values :
  map (fun p => Nat.iter 2 hx_step (fun i j => hx_xf i + hx_yf j + 5) (fst p) (snd p)) [(0, 0); (0, 1); (1, 0); (1, 1); (2, 0); (2, 1)] =
  [488; 600; 1664; 1888; 1768; 1880].
Proof. vm_compute. reflexivity. Qed.

Example C62_file_ex : exists w d' l b p z,
  hx_run = Ret (w, (d', l)) tt /\ d' "./untitled_file.plt"%string = Some b /\ parse_plt b = Some p /\ p_zones p = [z] /\
  h_size (pz_head z) = [2; 3; 1] /\
  exists q0 q1 q2 q3, pz_vars z = [q0; q1; q2; q3] /\ element 8 (pv_data q0) 5 = le 8 20 /\ element 8 (pv_data q1) 5 = le 8 7 /\
    element 8 (pv_data q2) 5 = le 8 1880 /\ element 8 (pv_data q3) 5 = le 8 140 /\ length (pv_data q2) = 48%nat.
Proof.
  destruct hx_env as (Hp & Hc & Hb).
  destruct (C62_file nofail true true 3 2 (le 8) hx_junk (fun _ => true) env_ex 1 2 hx_xf hx_yf (fun x y => x + y + 5) (fun x y => x * y) Z.opp
    (fun a b c => a - 2 * b + c) (fun d a b c => d + (a - 2 * b + c)) (fun u d => 10 * u + d) (fun _ => None)
    ltac:(lia) ltac:(lia) ltac:(lia) ltac:(lia) (fun _ _ => eq_refl) hx_encodes Hp Hc eq_refl)
    as (w & d' & l & b & p & z & R1 & R2 & R3 & _ & R4 & R5 & R6 & _).
  exists w, d', l, b, p, z. split; [exact R1|]. split; [exact R2|]. split; [exact R3|]. split; [exact R4|]. split; [exact R5|].
  inversion R6 as [|q0 ? l0 ? V0 R7]; subst. inversion R7 as [|q1 ? l1 ? V1 R8]; subst. inversion R8 as [|q2 ? l2 ? V2 R9]; subst.
  inversion R9 as [|q3 ? l3 ? V3 R10]; subst. inversion R10; subst.
  exists q0, q1, q2, q3. split; [reflexivity|].
  split; [exact (proj2 (proj2 V0) 2 1 ltac:(lia) ltac:(lia))|]. split; [exact (proj2 (proj2 V1) 2 1 ltac:(lia) ltac:(lia))|].
  split; [exact (proj2 (proj2 V2) 2 1 ltac:(lia) ltac:(lia))|]. split; [exact (proj2 (proj2 V3) 2 1 ltac:(lia) ltac:(lia))|].
  apply Nat2Z.inj. exact (proj1 (proj2 V2)).
Qed.

(** A program with a 2D array with room for the values loads u1 into component 0. *)
Definition hl_h : list (op Z) := [NewSized (K2 2 half center) [(0, 4, 1); (2, 2, 0)]; Write 0 0 [3; 1] [FN; FC] 11].
Definition hl_w : world Z := match exec true (start nofail) hl_h with Some (w, _) => w | None => start nofail end.
Definition hl_aw : aworld Z := fst (aexec nofail a_start hl_h).
Definition hl_o : obj := match find hl_w 0 with Some (_, o) => o | None => O1 (mkPD1 (mkSize1 0 0 0) Null []) end.
Definition double_bits (b : bytes) : option Z := Some (unle b).
Example hl_after : after nofail hl_h hl_w hl_aw.
Proof. split; [legal_tac|]. split; [reflexivity|]. eexists. vm_compute. reflexivity. Qed.

Example C62_load_ex : exists w d' l g' w2' val,
  hx_run = Ret (w, (d', l)) tt /\ read_log d' "./untitled_file.xml" = Ok g' /\
  m_read_plt true double_bits double_bits (K2 2 half center) d' "." g' 0 "u1" 0 hl_o (heap hl_w, 0) = Ret (heap w2', 0) tt /\
  overwritten hl_aw hl_w w2' (K2 2 half center) 0 hl_o 0 [3; 2] val /\ val [2; 1] = Some 1880.
Proof.
  destruct hx_env as (Hp & Hc & Hb).
  destruct C62_file_ex as (w & d' & l & b & p & z & E & _).
  destruct (C62_load nofail true true 3 2 (le 8) hx_junk (fun _ => true) env_ex 1 2 hx_xf hx_yf (fun x y => x + y + 5) (fun x y => x * y) Z.opp
    (fun a b c => a - 2 * b + c) (fun d a b c => d + (a - 2 * b + c)) (fun u d => 10 * u + d) (fun _ => None)
    w d' l true double_bits double_bits (fun v => v mod 2 ^ 64) nofail hl_h hl_w hl_aw 0 (K2 2 half center) hl_o 0 0 2 "u1"
    (Nat.iter 2 hx_step (fun i j => hx_xf i + hx_yf j + 5))
    ltac:(lia) ltac:(lia) ltac:(lia) ltac:(lia) (fun _ _ => eq_refl) hx_encodes Hp Hc eq_refl Hb E) as (g' & w2' & val & R1 & R2 & R3 & R4).
  { discriminate. } { intros y. unfold double_bits. now rewrite unle_le. } { exact hl_after. } { intros kk gs nb. vm_compute. discriminate. }
  { vm_compute. reflexivity. } { cbn. lia. } { reflexivity. }
  { replace (m_size hl_o) with [(0, 4, 1); (2, 2, 0)] by (vm_compute; reflexivity). do 2 (apply Forall2_cons; [unfold size_in; cbn; lia|]). apply Forall2_nil. }
  { reflexivity. } { reflexivity. } { reflexivity. }
  exists w, d', l, g', w2', val. split; [exact E|]. split; [exact R1|]. split; [exact R2|]. split; [exact R3|].
  rewrite (R4 2 1 ltac:(lia) ltac:(lia)). reflexivity.
Qed.
