(** read_plt in reachable states. *)

From Coq Require Import ZArith Ascii String List Bool Lia.
From Verif Require Import Base M_Flags M_Loop M_RS1 M_RS2 M_RS3 M_Bytes M_TecZone M_TecFile Spec_Tec Spec_Plt
  M_Heap M_PD1 M_PD2 M_PD3 M_World M_Read
  Spec Spec_Loop Spec_Array Spec_Hist Spec_Reach Spec_Read
  L_Base L_RS L_Range L_Loop L_Heap L_Lin L_Rep L_PD1 L_PD2 L_PD3 L_Kind L_Copy L_World L_ReadCall L_Access L_Life L_Copies.
Import ListNotations.
Open Scope Z_scope.

Section Read.
Context {V : Type}.
Variables (chk : bool) (of_float of_double : bytes -> option V).
Implicit Types (w : world V) (aw : aworld V) (m : mem V).
Notation the_read := (m_read_plt chk of_float of_double).

Section Call.
Variables (F : nat -> bool) (h : list (op V)) (w : world V) (aw : aworld V) (a : nat) (k : kind) (o : obj).
Hypothesis HA : after F h w aw.
Hypothesis HH : healthy aw a.
Hypothesis Hf : find w a = Some (k, o).

Lemma call_rep : exists x own lk, kok k /\ rep k (heap w) o x (own a) /\ (forall gs nb, x <> ABroken gs nb) /\ rel F w aw own lk.
Proof.
  destruct (after_find _ _ _ _ _ _ _ HA Hf) as (x & own & lk & Ha & HN & Hr & HR). exists x, own, lk.
  split; [assumption|]. split; [assumption|]. split; [|assumption]. intros gs nb ->. exact (HH _ _ _ Ha).
Qed.

Lemma call_sizes : sizes_ok k o /\ 1 <= k_N k <= INT_MAX.
Proof.
  destruct call_rep as (x & own & lk & HN & Hr & Hx & _). split; [eapply rep_sizes; eassumption|exact HN].
Qed.

Variables (fs : files) (root : string) (log : file_log) (zone : Z) (name : string) (nn : Z) (live : Z).
Hypothesis Hlog : log_wf log.
Hypothesis Hz0 : 0 <= zone.
Hypothesis Hn0 : 0 <= nn.
Let starved := F (tick (heap w)) = true.

Lemma fails_F : fails (heap w) = F.
Proof. destruct call_rep as (x & own & lk & _ & _ & _ & HR). apply (r_fails _ _ _ _ _ HR). Qed.

Lemma read_refused e :
  (chk = true \/ nn < k_N k) -> refusal fs root log zone name nn k (m_size o) starved e ->
  exists t, the_read k fs root log zone name nn o (heap w, live) = Thr (mkMem (blocks (heap w)) F t, live) e.
Proof.
  intros Hk HR. pose proof fails_F as EF. destruct call_rep as (x & own & lk & HN & Hr & Hx & _).
  unfold starved in HR. rewrite <- EF in HR. rewrite <- EF. eexists. eapply refused_at; eassumption.
Qed.

Lemma read_done z d b :
  readable fs root log zone name nn k (m_size o) starved z d b ->
  (forall i, 0 <= i < product (log_sizes k z) -> stored of_float of_double (dl_type d) b (dl_pt d) i <> None) ->
  exists w', the_read k fs root log zone name nn o (heap w, live) = Ret (heap w', live) tt /\
    overwritten aw w w' k a o nn (log_sizes k z)
      (fun q => stored of_float of_double (dl_type d) b (dl_pt d) (rank (log_sizes k z) q)).
Proof.
  intros HD Hconv. pose proof fails_F as EF. destruct call_rep as (x & own & lk & HN & Hr & Hx & HR).
  unfold starved in HD. rewrite <- EF in HD.
  destruct (done_at chk of_float of_double k (heap w) o x (own a) HN Hr Hx fs root log zone name nn live Hlog Hz0 Hn0 z d b HD Hconv)
    as (m' & gs & f & -> & E & Hsb & Hr').
  pose proof (rep_size _ _ _ _ _ Hr) as Zs. cbn [a_shape] in Zs.
  set (ss := log_sizes k z) in *.
  exists (mkWorld m' (objs w)). split.
  - exact E.
  - destruct Hsb as (_ & _ & _ & T4).
    split; [reflexivity|]. split; [|split].
    + intros c. cbn [heap]. pose proof (hd_own _ _ _ _ _ _ Hr) as Ho. destruct (Nat.eq_dec c (hd O (own a))) as [->|Nc].
      * pose proof (rep_live _ _ _ _ _ _ Hr Ho). pose proof (rep_live _ _ _ _ _ _ Hr' Ho). tauto.
      * rewrite T4; [reflexivity|]. intros [X|[]]. congruence.
    + intros n q v Hn1 Hq. rewrite Zs in Hq.
      pose proof (reads_rep (mkWorld m' (objs w)) k o gs _ (own a) n q v HN Hr') as X0.
      pose proof (reads_rep w k o gs f (own a) n q v HN Hr) as X1. cbv beta in X0.
      destruct ((n =? nn) && in_boxb (corner ss) q) eqn:Eb.
      * clear - X0 Hn1 Hq. tauto.
      * clear - X0 X1. tauto.
    + intros x k' o' n q v Hxf Hxh Hxd.
      assert (Eb : forall c, In c (own x) -> block m' c = block (heap w) c).
      { intros c Hc'. rewrite T4; [reflexivity|]. intros [X|[]]. subst c. apply Hxd. eapply (r_disj _ _ _ _ _ HR); [exact Hc'|].
        eapply hd_own; exact Hr. }
      pose proof (r_arr _ _ _ _ _ HR x) as Ha. rewrite Hxf in Ha. unfold entry_ok in Ha.
      destruct (afind aw x) as [[k1 y]|] eqn:Ax; [|contradiction]. destruct Ha as (<- & HN' & Hrx0).
      assert (Hrx : rep k' m' o' y (own x)) by (eapply rep_frame; eassumption).
      destruct y as [|g f'|g nb].
      * split; intros X; exfalso; [eapply (reads_empty (mkWorld m' (objs w)))|eapply (reads_empty w)]; eassumption.
      * pose proof (reads_rep (mkWorld m' (objs w)) k' o' g f' (own x) n q v HN' Hrx) as X0.
        pose proof (reads_rep w k' o' g f' (own x) n q v HN' Hrx0) as X1. clear - X0 X1. tauto.
      * destruct (Hxh _ _ _ Ax).
Qed.

Lemma read_cases :
  (exists e, refusal fs root log zone name nn k (m_size o) starved e) \/
  (exists z d b, readable fs root log zone name nn k (m_size o) starved z d b).
Proof.
  destruct (Z_le_dec (k_N k) nn) as [H|H]; [left; eexists; now apply no_component|].
  destruct (Z_le_dec (Z.of_nat (length (fl_zones log))) zone) as [Hz|Hz]; [left; eexists; apply no_zone; [lia|assumption]|].
  destruct (nth_error (fl_zones log) (Z.to_nat zone)) as [z|] eqn:Ez; [|apply nth_error_None in Ez; lia].
  assert (HL : located log zone nn k z) by (split; [lia|assumption]).
  destruct (sizes_in_dec (m_size o) (log_sizes k z)) as [HS|HS]; [|left; eexists; eapply wrong_size; eassumption].
  assert (HS' : sized log zone nn k (m_size o) z) by (split; assumption).
  destruct (in_dec string_dec name (f_vars (fl_file log))) as [Hi|Hi]; [|left; eexists; eapply no_name; eassumption].
  assert (Hd : exists d, named log zone name nn k (m_size o) z d).
  { pose proof (find_var_le (f_vars (fl_file log)) name) as Hle.
    assert (Hlt : (find_var (f_vars (fl_file log)) name < length (f_vars (fl_file log)))%nat).
    { destruct (Nat.eq_dec (find_var (f_vars (fl_file log)) name) (length (f_vars (fl_file log)))) as [E|E]; [|lia].
      apply find_var_none in E. contradiction. }
    assert (Hlen : length (zl_data z) = length (f_vars (fl_file log))).
    { unfold log_wf in Hlog. rewrite Forall_forall in Hlog. destruct (Hlog z) as [X _]; [eapply nth_error_In; eassumption|exact X]. }
    destruct (nth_error (zl_data z) (find_var (f_vars (fl_file log)) name)) as [d|] eqn:Ed; [|apply nth_error_None in Ed; lia].
    exists d. split; [assumption|]. eexists. split; [now apply find_var_first|exact Ed]. }
  destruct Hd as [d Hd].
  destruct (fs (plt_path root log)) as [b|] eqn:Eb; [|left; eexists; eapply no_file; [eassumption|now left]].
  destruct (Z_lt_dec (dl_pt d) 0) as [Hp|Hp]; [left; eexists; eapply no_file; [eassumption|now right]|].
  assert (Ho : opened fs root log zone name nn k (m_size o) z d b) by (split; [assumption|split; [assumption|lia]]).
  destruct (bool_dec (F (tick (heap w))) true) as [EF|Hns]; [left; eexists; eapply no_memory; [eassumption|exact EF]|].
  destruct (Z_le_dec (dl_pt d + product (log_sizes k z) * width (dl_type d)) (Z.of_nat (length b))) as [Hl|Hl];
    [|left; eexists; eapply too_short; [eassumption|assumption|lia]].
  assert (Hob : obtained fs root log zone name nn k (m_size o) starved z d b) by (split; [assumption|split; assumption]).
  destruct (Z.eq_dec (dl_type d) 1) as [H1|H1]; [right; exists z, d, b; split; auto|].
  destruct (Z.eq_dec (dl_type d) 2) as [H2|H2]; [right; exists z, d, b; split; auto|].
  left. eexists. eapply wrong_type; eassumption.
Qed.
End Call.
End Read.
