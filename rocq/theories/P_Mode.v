(** Property C14: checked and unchecked builds.

    Reading guide.  [step chk w c], [exec chk w h] (M_World.v): one call, a
    program, with the checks on or off.  [from_check e] (Spec_Mode.v): the
    exceptions of the parts compiled only with _CHECK_POINTDATA_RANGE.
    [rsim x y], [msim x y]: an ordinary result of [x] (with checks) is also the
    result of [y] (without), an exception of [x] comes from a check or is also
    thrown by [y]. *)

From Coq Require Import ZArith String List Bool Lia.
From Verif Require Import Base M_Flags M_Loop M_RS1 M_RS2 M_RS3 M_Heap M_PD0 M_PD1 M_PD2 M_PD3 M_World
  Spec Spec_Mode L_Mode.
Import ListNotations.
Open Scope Z_scope.
Open Scope list_scope.

(** Ranges and sizes. *)
Theorem C14_ranges_1D :
  (forall x0 x1, rsim (rbegin1 true x0 x1) (rbegin1 false x0 x1)) /\
  (forall x0 x1, rsim (rsize1 true x0 x1) (rsize1 false x0 x1)) /\
  (forall x0 x1, rsim (rend1 true x0 x1) (rend1 false x0 x1)) /\
  (forall x0 x1, rsim (rlast1 true x0 x1) (rlast1 false x0 x1)) /\
  (forall x0 x1 x2, rsim (rbound1 true x0 x1 x2) (rbound1 false x0 x1 x2)) /\
  (forall x0 x1, rsim (is_overlap1 true x0 x1) (is_overlap1 false x0 x1)) /\
  (forall x0 x1, rsim (overlap1 true x0 x1) (overlap1 false x0 x1)) /\
  (forall x0 x1 x2 x3 x4, rsim (check_range1 true x0 x1 x2 x3 x4) (check_range1 false x0 x1 x2 x3 x4)) /\
  (forall x0 x1, rsim (sin1 true x0 x1) (sin1 false x0 x1)) /\
  (forall x0 x1, rsim (sn1 true x0 x1) (sn1 false x0 x1)) /\
  (forall x0 x1, rsim (sp1 true x0 x1) (sp1 false x0 x1)) /\
  (forall x0 x1 x2, rsim (sbegin1 true x0 x1 x2) (sbegin1 false x0 x1 x2)) /\
  (forall x0 x1 x2, rsim (send1 true x0 x1 x2) (send1 false x0 x1 x2)) /\
  (forall x0 x1 x2, rsim (ssize1 true x0 x1 x2) (ssize1 false x0 x1 x2)) /\
  (forall x0 x1 x2, rsim (slast1 true x0 x1 x2) (slast1 false x0 x1 x2)) /\
  (forall x0 x1 x2 x3, rsim (sbound1 true x0 x1 x2 x3) (sbound1 false x0 x1 x2 x3)) /\
  (forall x0 x1 x2 x3, rsim (mirror1 true x0 x1 x2 x3) (mirror1 false x0 x1 x2 x3)) /\
  (forall x0 x1 x2 x3, rsim (periodic1 true x0 x1 x2 x3) (periodic1 false x0 x1 x2 x3)) /\
  (forall x0 x1, rsim (srange1 true x0 x1) (srange1 false x0 x1)).
Proof. exact (@ranges_sim_1). Qed.
Print Assumptions C14_ranges_1D.
Theorem C14_ranges_2D :
  (forall x0 x1, rsim (rbegin2 true x0 x1) (rbegin2 false x0 x1)) /\
  (forall x0 x1, rsim (rsize2 true x0 x1) (rsize2 false x0 x1)) /\
  (forall x0 x1, rsim (rend2 true x0 x1) (rend2 false x0 x1)) /\
  (forall x0 x1, rsim (rlast2 true x0 x1) (rlast2 false x0 x1)) /\
  (forall x0 x1 x2, rsim (rbound2 true x0 x1 x2) (rbound2 false x0 x1 x2)) /\
  (forall x0 x1, rsim (is_overlap2 true x0 x1) (is_overlap2 false x0 x1)) /\
  (forall x0 x1, rsim (overlap2 true x0 x1) (overlap2 false x0 x1)) /\
  (forall x0 x1 x2 x3 x4, rsim (check_range2 true x0 x1 x2 x3 x4) (check_range2 false x0 x1 x2 x3 x4)) /\
  (forall x0 x1, rsim (sin2 true x0 x1) (sin2 false x0 x1)) /\
  (forall x0 x1, rsim (sn2 true x0 x1) (sn2 false x0 x1)) /\
  (forall x0 x1, rsim (sp2 true x0 x1) (sp2 false x0 x1)) /\
  (forall x0 x1 x2, rsim (sbegin2 true x0 x1 x2) (sbegin2 false x0 x1 x2)) /\
  (forall x0 x1 x2, rsim (send2 true x0 x1 x2) (send2 false x0 x1 x2)) /\
  (forall x0 x1 x2, rsim (ssize2 true x0 x1 x2) (ssize2 false x0 x1 x2)) /\
  (forall x0 x1 x2, rsim (slast2 true x0 x1 x2) (slast2 false x0 x1 x2)) /\
  (forall x0 x1 x2 x3, rsim (sbound2 true x0 x1 x2 x3) (sbound2 false x0 x1 x2 x3)) /\
  (forall x0 x1 x2 x3, rsim (mirror2 true x0 x1 x2 x3) (mirror2 false x0 x1 x2 x3)) /\
  (forall x0 x1 x2 x3, rsim (periodic2 true x0 x1 x2 x3) (periodic2 false x0 x1 x2 x3)) /\
  (forall x0 x1 x2, rsim (srange2 true x0 x1 x2) (srange2 false x0 x1 x2)).
Proof. exact (@ranges_sim_2). Qed.
Print Assumptions C14_ranges_2D.
Theorem C14_ranges_3D :
  (forall x0 x1, rsim (rbegin3 true x0 x1) (rbegin3 false x0 x1)) /\
  (forall x0 x1, rsim (rsize3 true x0 x1) (rsize3 false x0 x1)) /\
  (forall x0 x1, rsim (rend3 true x0 x1) (rend3 false x0 x1)) /\
  (forall x0 x1, rsim (rlast3 true x0 x1) (rlast3 false x0 x1)) /\
  (forall x0 x1 x2, rsim (rbound3 true x0 x1 x2) (rbound3 false x0 x1 x2)) /\
  (forall x0 x1, rsim (is_overlap3 true x0 x1) (is_overlap3 false x0 x1)) /\
  (forall x0 x1, rsim (overlap3 true x0 x1) (overlap3 false x0 x1)) /\
  (forall x0 x1 x2 x3 x4, rsim (check_range3 true x0 x1 x2 x3 x4) (check_range3 false x0 x1 x2 x3 x4)) /\
  (forall x0 x1, rsim (sin3 true x0 x1) (sin3 false x0 x1)) /\
  (forall x0 x1, rsim (sn3 true x0 x1) (sn3 false x0 x1)) /\
  (forall x0 x1, rsim (sp3 true x0 x1) (sp3 false x0 x1)) /\
  (forall x0 x1 x2, rsim (sbegin3 true x0 x1 x2) (sbegin3 false x0 x1 x2)) /\
  (forall x0 x1 x2, rsim (send3 true x0 x1 x2) (send3 false x0 x1 x2)) /\
  (forall x0 x1 x2, rsim (ssize3 true x0 x1 x2) (ssize3 false x0 x1 x2)) /\
  (forall x0 x1 x2, rsim (slast3 true x0 x1 x2) (slast3 false x0 x1 x2)) /\
  (forall x0 x1 x2 x3, rsim (sbound3 true x0 x1 x2 x3) (sbound3 false x0 x1 x2 x3)) /\
  (forall x0 x1 x2 x3, rsim (mirror3 true x0 x1 x2 x3) (mirror3 false x0 x1 x2 x3)) /\
  (forall x0 x1 x2 x3, rsim (periodic3 true x0 x1 x2 x3) (periodic3 false x0 x1 x2 x3)) /\
  (forall x0 x1 x2 x3, rsim (srange3 true x0 x1 x2 x3) (srange3 false x0 x1 x2 x3)).
Proof. exact (@ranges_sim_3). Qed.
Print Assumptions C14_ranges_3D.

(** Loops: if the bodies agree in the two modes so do the loops. *)
Theorem C14_loops_1D (S T : Type) :
  (forall x0 (f g : Z -> M S unit), (forall i0, msim (f i0) (g i0)) -> msim (PD_For_1D true x0 f) (PD_For_1D false x0 g)) /\
  (forall x0 x1 x2 (f g : Z -> Z -> M S unit), (forall i0 i1, msim (f i0 i1) (g i0 i1)) -> msim (PD_For_N_1D true x0 x1 x2 f) (PD_For_N_1D false x0 x1 x2 g)) /\
  (forall x0 x1 x2 (f g : Z -> M S T), (forall i0, msim (f i0) (g i0)) -> msim (PD_Reduce_1D true x0 x1 x2 f) (PD_Reduce_1D false x0 x1 x2 g)) /\
  (forall x0 x1 x2 x3 x4 (f g : Z -> Z -> M S T), (forall i0 i1, msim (f i0 i1) (g i0 i1)) -> msim (PD_Reduce_N_1D true x0 x1 x2 x3 x4 f) (PD_Reduce_N_1D false x0 x1 x2 x3 x4 g)).
Proof. exact (@loops_sim_1 S T). Qed.
Print Assumptions C14_loops_1D.
Theorem C14_loops_2D (S T : Type) :
  (forall x0 (f g : Z -> Z -> M S unit), (forall i0 i1, msim (f i0 i1) (g i0 i1)) -> msim (PD_For_2D true x0 f) (PD_For_2D false x0 g)) /\
  (forall x0 x1 x2 (f g : Z -> Z -> Z -> M S unit), (forall i0 i1 i2, msim (f i0 i1 i2) (g i0 i1 i2)) -> msim (PD_For_N_2D true x0 x1 x2 f) (PD_For_N_2D false x0 x1 x2 g)) /\
  (forall x0 x1 x2 (f g : Z -> Z -> M S T), (forall i0 i1, msim (f i0 i1) (g i0 i1)) -> msim (PD_Reduce_2D true x0 x1 x2 f) (PD_Reduce_2D false x0 x1 x2 g)) /\
  (forall x0 x1 x2 x3 x4 (f g : Z -> Z -> Z -> M S T), (forall i0 i1 i2, msim (f i0 i1 i2) (g i0 i1 i2)) -> msim (PD_Reduce_N_2D true x0 x1 x2 x3 x4 f) (PD_Reduce_N_2D false x0 x1 x2 x3 x4 g)) /\
  (forall x0 x1 (f g : Z -> M S unit), (forall i0, msim (f i0) (g i0)) -> msim (PD_For_1D_2 true x0 x1 f) (PD_For_1D_2 false x0 x1 g)) /\
  (forall x0 x1 x2 x3 (f g : Z -> Z -> M S unit), (forall i0 i1, msim (f i0 i1) (g i0 i1)) -> msim (PD_For_N_1D_2 true x0 x1 x2 x3 f) (PD_For_N_1D_2 false x0 x1 x2 x3 g)) /\
  (forall x0 x1 x2 x3 (f g : Z -> M S T), (forall i0, msim (f i0) (g i0)) -> msim (PD_Reduce_1D_2 true x0 x1 x2 x3 f) (PD_Reduce_1D_2 false x0 x1 x2 x3 g)) /\
  (forall x0 x1 x2 x3 x4 x5 (f g : Z -> Z -> M S T), (forall i0 i1, msim (f i0 i1) (g i0 i1)) -> msim (PD_Reduce_N_1D_2 true x0 x1 x2 x3 x4 x5 f) (PD_Reduce_N_1D_2 false x0 x1 x2 x3 x4 x5 g)).
Proof. exact (@loops_sim_2 S T). Qed.
Print Assumptions C14_loops_2D.
Theorem C14_loops_3D (S T : Type) :
  (forall x0 (f g : Z -> Z -> Z -> M S unit), (forall i0 i1 i2, msim (f i0 i1 i2) (g i0 i1 i2)) -> msim (PD_For_3D true x0 f) (PD_For_3D false x0 g)) /\
  (forall x0 x1 x2 (f g : Z -> Z -> Z -> Z -> M S unit), (forall i0 i1 i2 i3, msim (f i0 i1 i2 i3) (g i0 i1 i2 i3)) -> msim (PD_For_N_3D true x0 x1 x2 f) (PD_For_N_3D false x0 x1 x2 g)) /\
  (forall x0 x1 x2 (f g : Z -> Z -> Z -> M S T), (forall i0 i1 i2, msim (f i0 i1 i2) (g i0 i1 i2)) -> msim (PD_Reduce_3D true x0 x1 x2 f) (PD_Reduce_3D false x0 x1 x2 g)) /\
  (forall x0 x1 x2 x3 x4 (f g : Z -> Z -> Z -> Z -> M S T), (forall i0 i1 i2 i3, msim (f i0 i1 i2 i3) (g i0 i1 i2 i3)) -> msim (PD_Reduce_N_3D true x0 x1 x2 x3 x4 f) (PD_Reduce_N_3D false x0 x1 x2 x3 x4 g)) /\
  (forall x0 x1 x2 (f g : Z -> Z -> M S unit), (forall i0 i1, msim (f i0 i1) (g i0 i1)) -> msim (PD_For_2D_3 true x0 x1 x2 f) (PD_For_2D_3 false x0 x1 x2 g)) /\
  (forall x0 x1 x2 x3 x4 (f g : Z -> Z -> Z -> M S unit), (forall i0 i1 i2, msim (f i0 i1 i2) (g i0 i1 i2)) -> msim (PD_For_N_2D_3 true x0 x1 x2 x3 x4 f) (PD_For_N_2D_3 false x0 x1 x2 x3 x4 g)) /\
  (forall x0 x1 x2 x3 x4 (f g : Z -> Z -> M S T), (forall i0 i1, msim (f i0 i1) (g i0 i1)) -> msim (PD_Reduce_2D_3 true x0 x1 x2 x3 x4 f) (PD_Reduce_2D_3 false x0 x1 x2 x3 x4 g)) /\
  (forall x0 x1 x2 x3 x4 x5 x6 (f g : Z -> Z -> Z -> M S T), (forall i0 i1 i2, msim (f i0 i1 i2) (g i0 i1 i2)) -> msim (PD_Reduce_N_2D_3 true x0 x1 x2 x3 x4 x5 x6 f) (PD_Reduce_N_2D_3 false x0 x1 x2 x3 x4 x5 x6 g)) /\
  (forall x0 x1 (f g : Z -> M S unit), (forall i0, msim (f i0) (g i0)) -> msim (PD_For_1D_3 true x0 x1 f) (PD_For_1D_3 false x0 x1 g)) /\
  (forall x0 x1 x2 x3 (f g : Z -> Z -> M S unit), (forall i0 i1, msim (f i0 i1) (g i0 i1)) -> msim (PD_For_N_1D_3 true x0 x1 x2 x3 f) (PD_For_N_1D_3 false x0 x1 x2 x3 g)) /\
  (forall x0 x1 x2 x3 (f g : Z -> M S T), (forall i0, msim (f i0) (g i0)) -> msim (PD_Reduce_1D_3 true x0 x1 x2 x3 f) (PD_Reduce_1D_3 false x0 x1 x2 x3 g)) /\
  (forall x0 x1 x2 x3 x4 x5 (f g : Z -> Z -> M S T), (forall i0 i1, msim (f i0 i1) (g i0 i1)) -> msim (PD_Reduce_N_1D_3 true x0 x1 x2 x3 x4 x5 f) (PD_Reduce_N_1D_3 false x0 x1 x2 x3 x4 x5 g)).
Proof. exact (@loops_sim_3 S T). Qed.
Print Assumptions C14_loops_3D.

(** Any call in any state. *)
Theorem C14_call {V : Type} (w w' : world V) c r :
 step true w c = Some (w', r) -> unchecked_result r ->
  step false w c = Some (w', r).
Proof. exact (@call_modes V w w' c r). Qed.
Print Assumptions C14_call.

(** Any program from any state: if no check fires, the results and the final
    state are the same without the checks. *)
Theorem C14_histories {V : Type} (w w' : world V) h rs : exec true w h = Some (w', rs) -> Forall unchecked_result rs -> exec false w h = Some (w', rs).
Proof. exact (@history_modes V w w' h rs). Qed.
Print Assumptions C14_histories.
Theorem C14_histories_0D {V : Type} N (o o' : pd0 (V := V)) h rs : exec0 N true o h = Some (o', rs) -> Forall unchecked_result0 rs -> exec0 N false o h = Some (o', rs).
Proof. exact (@history0_modes V N o o' h rs). Qed.
Print Assumptions C14_histories_0D.

(** disp_data in any state. *)
Theorem C14_disp {V : Type} k (m : mem V) o : msim (m_disp true k m o) (m_disp false k m o).
Proof. exact (@disp_modes V k m o). Qed.
Print Assumptions C14_disp.

(** Without the checks no exception of a check is thrown by any program. *)
Theorem C14_unchecked_silent {V : Type} (w w' : world V) h rs : exec false w h = Some (w', rs) -> Forall unchecked_result rs.
Proof. exact (@unchecked_silent V w w' h rs). Qed.
Print Assumptions C14_unchecked_silent.

(** A program with exceptions (allocating twice, clearing twice), where no
    check fires, in both modes; and a call where one fires. *)
Definition md_h : list (op Z) :=
  [New (K2 1 center half); Alloc 0%nat [(1, 1, 0); (0, 1, 0)]; Alloc 0%nat [(1, 1, 0); (0, 1, 0)];
   Write 0%nat 0 [-1; 0] [FC; FP] 7; Read 0%nat 0 [-1; 1] [FC; FN]; Clear 0%nat; Clear 0%nat].
Definition md_rs : list (result Z) :=
  [RDone; RDone; RExn EAllocNotEmpty; RDone; RVal (Some 7); RDone; RExn EClearEmpty].

Example C14_example :
  (exists w, exec true (start (fun _ => false)) md_h = Some (w, md_rs)) /\
  (exists w, exec false (start (fun _ => false)) md_h = Some (w, md_rs)) /\
  Forall unchecked_result md_rs /\
  (exists w, exec (V := Z) true (start (fun _ => false)) [NewSized (K1 1 center) [(0, 3, 0)]; Read 0%nat 0 [3] [FC]]
             = Some (w, [RDone; RExn (ERangeC 0 3 0 2)])) /\
  exec (V := Z) false (start (fun _ => false)) [NewSized (K1 1 center) [(0, 3, 0)]; Read 0%nat 0 [3] [FC]] = None.
Proof.
  split; [eexists; vm_compute; reflexivity|]. split; [eexists; vm_compute; reflexivity|].
  split; [repeat constructor|]. split; [eexists; vm_compute; reflexivity|vm_compute; reflexivity].
Qed.
