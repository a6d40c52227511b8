(** Property C63: printed arrays of floating point numbers.

    Reading guide (see also P_Access.v and P_Disp.v).  disp_data puts strings, integers and elements into a stream; the tokens
    [out] are those of C29 and C30, [render_as f out] are the characters if the stream prints an element [v] as [f v].  [fmt_g]
    is what it prints for a [double] given by its bit pattern, [fmt_gf] for a [float] (M_Print.v).  [scan_double] is
    sscanf("%lf"), [num64] the value of a bit pattern ([Fin v]: [v] times the smallest positive number, 2^-1074), [close] and
    [literal] are in Spec_Print.v. *)

From Coq Require Import ZArith Ascii String List Bool Lia.
From Verif Require Import Base M_Flags M_RS1 M_RS2 M_RS3 M_Bytes M_Heap M_PD0 M_PD1 M_PD2 M_PD3 M_World
  Spec Spec_Loop Spec_Array Spec_Log Spec_Hist Spec_Reach Spec_Zero M_Scan
  L_Base L_World L_Access L_Kind M_Print Spec_Print L_Print L_PrintData P_Access P_Disp.
Import ListNotations.
Open Scope string_scope.
Open Scope Z_scope.

(** ** Arrays *)

(** Any two element types and any two ways of printing them without a comma: if disp_data gives the same characters for two
    arrays of the same class and the same sizes, it has printed the same text for every element. *)
Theorem C63_text {V W} F F' (h : list (op V)) (h' : list (op W)) (w : world V) (w' : world W) (aw : aworld V) (aw' : aworld W)
    a a' k o o' val val' (f : V -> string) (f' : W -> string) chk chk' out out' :
  after F h w aw -> healthy aw a -> find w a = Some (k, o) -> o_data o <> Null ->
  after F' h' w' aw' -> healthy aw' a' -> find w' a' = Some (k, o') -> o_data o' <> Null ->
  m_size o = m_size o' ->
  (forall n q, 0 <= n < k_N k -> in_box (slot_box (m_size o) (k_locs k)) q ->
     reads w k o n q (Some (val n q)) /\ no_comma (f (val n q)) /\ reads w' k o' n q (Some (val' n q)) /\ no_comma (f' (val' n q))) ->
  m_disp chk k (heap w) o [] = Ret out tt -> m_disp chk' k (heap w') o' [] = Ret out' tt ->
  render_as f out = render_as f' out' ->
  forall n q, 0 <= n < k_N k -> in_box (slot_box (m_size o) (k_locs k)) q -> f (val n q) = f' (val' n q).
Proof. exact (@print_data V W F F' h h' w w' aw aw' a a' k o o' val val' f f' chk chk' out out'). Qed.

(** The same for 0D arrays. *)
Theorem C63_text_0D {V W} N (h : list (op0 V)) (h' : list (op0 W)) o o1 val (o' : pd0 (V := V)) (o1' : pd0 (V := W)) val' rs rs'
    (f : V -> string) (f' : W -> string) out out' :
  0 <= N <= INT_MAX ->
  ctor0 N = Ok o -> Forall (fun c => 0 <= arg0 c) h -> exec0 N true o h = Some (o', rs) ->
  ctor0 N = Ok o1 -> Forall (fun c => 0 <= arg0 c) h' -> exec0 N true o1 h' = Some (o1', rs') ->
  (forall n, 0 <= n < N -> last_write0 h n = Some (val n) /\ no_comma (f (val n)) /\ last_write0 h' n = Some (val' n) /\ no_comma (f' (val' n))) ->
  disp_data0 N o' [] = Ret out tt -> disp_data0 N o1' [] = Ret out' tt ->
  render_as f out = render_as f' out' ->
  forall n, 0 <= n < N -> f (val n) = f' (val' n).
Proof. exact (@print_data0 V W N h h' o o1 val o' o1' val' rs rs' f f' out out'). Qed.

(** ** Elements *)

(** What is printed for a [double] or a [float] has no comma and reads back close to the number: NaN and infinities as
    themselves, any other with a relative error of at most 10^-5. *)
Theorem C63_reads b : no_comma (fmt_g b) /\ exists y, scan_double (fmt_g b) = Some y /\ close b y.
Proof. split; [apply no_comma_g|apply scan_g]. Qed.
Theorem C63_reads_float b : no_comma (fmt_gf b) /\ exists y, scan_double (fmt_gf b) = Some y /\ close (f32_to_f64 b) y.
Proof. exact (C63_reads (f32_to_f64 b)). Qed.

(** Two arrays of [double] with the same characters have elements close to the same numbers. *)
Theorem C63_double F F' (h h' : list (op Z)) w w' aw aw' a a' k o o' val val' chk chk' out out' :
  after F h w aw -> healthy aw a -> find w a = Some (k, o) -> o_data o <> Null ->
  after F' h' w' aw' -> healthy aw' a' -> find w' a' = Some (k, o') -> o_data o' <> Null ->
  m_size o = m_size o' ->
  (forall n q, 0 <= n < k_N k -> in_box (slot_box (m_size o) (k_locs k)) q ->
     reads w k o n q (Some (val n q)) /\ reads w' k o' n q (Some (val' n q))) ->
  m_disp chk k (heap w) o [] = Ret out tt -> m_disp chk' k (heap w') o' [] = Ret out' tt ->
  render_as fmt_g out = render_as fmt_g out' ->
  forall n q, 0 <= n < k_N k -> in_box (slot_box (m_size o) (k_locs k)) q -> exists y, close (val n q) y /\ close (val' n q) y.
Proof.
  intros HA Hh Hf Hd HA' Hh' Hf' Hd' HS Hv E E' ER n q Hn Hq.
  assert (T : fmt_g (val n q) = fmt_g (val' n q)).
  { apply (C63_text F F' h h' w w' aw aw' a a' k o o' val val' fmt_g fmt_g chk chk' out out'); try assumption.
    intros n1 q1 Hn1 Hq1. destruct (Hv n1 q1 Hn1 Hq1). split; [assumption|]. split; [apply no_comma_g|]. split; [assumption|apply no_comma_g]. }
  destruct (scan_g (val n q)) as (y & S & C). destruct (scan_g (val' n q)) as (y' & S' & C').
  rewrite T, S' in S. injection S as <-. exists y'. now split.
Qed.

(** A number written with up to six digits is printed so that it reads back as the very same [double]: [literal] reads as
    [literal_bits], which prints as a text that reads as [literal_bits]. *)
Theorem C63_six neg m e : 0 <= m < 10 ^ 6 -> -300 <= e <= 300 ->
  scan_double (literal neg m e) = Some (literal_bits neg m e) /\
  scan_double (fmt_g (literal_bits neg m e)) = Some (literal_bits neg m e).
Proof. intros Hm He. split; [now apply scan_literal|now apply six]. Qed.

(** A whole number of up to six digits prints as the [int] does. *)
Theorem C63_integer b n : num64 b = Fin (n * 2 ^ 1074) -> Z.abs n < 10 ^ 6 -> n <> 0 -> fmt_g b = fmt_i n.
Proof. exact (@whole b n). Qed.

(** More is not true: different numbers may print alike, so may a [double] that is not whole and an [int]. *)
Theorem C63_exact_refuted :
  (exists b b', num64 b <> num64 b' /\ fmt_g b = fmt_g b') /\
  (exists b n, (forall m, num64 b <> Fin (m * 2 ^ 1074)) /\ fmt_g b = fmt_i n) /\
  (exists b n, num64 b = Fin (n * 2 ^ 1074) /\ Z.abs n = 10 ^ 6 /\ fmt_g b <> fmt_i n).
Proof.
  split; [|split].
  - exists (1023 * 2 ^ 52), (1023 * 2 ^ 52 + 1). split; [vm_compute; discriminate|vm_compute; reflexivity].
  - exists (1023 * 2 ^ 52 + 1), 1. split; [|vm_compute; reflexivity].
    intros m E. assert (X : num64 (1023 * 2 ^ 52 + 1) = Fin ((2 ^ 52 + 1) * 2 ^ 1022)) by (vm_compute; reflexivity).
    rewrite X in E. apply L_ScanF.Fin_inj in E. change (2 ^ 1074) with (2 ^ 52 * 2 ^ 1022) in E. rewrite Z.mul_assoc in E.
    apply Z.mul_reg_r in E; [|apply Z.pow_nonzero; lia]. change (2 ^ 52) with 4503599627370496 in E. lia.
  - exists (literal_bits false 1 6), (10 ^ 6). split; [vm_compute; reflexivity|]. split; [reflexivity|]. vm_compute. discriminate.
Qed.

Print Assumptions C63_text.
Print Assumptions C63_text_0D.
Print Assumptions C63_reads.
Print Assumptions C63_reads_float.
Print Assumptions C63_double.
Print Assumptions C63_six.
Print Assumptions C63_integer.
Print Assumptions C63_exact_refuted.

(** ** Examples *)

(** The array of C29_example with 0.1, -2.5e+10, 100000 and 1/3 + 10^-7. *)
Definition pr_vals : list Z := [literal_bits false 1 (-1); literal_bits true 25 9; literal_bits false 100000 0; literal_bits false 33333343 (-8)].
Definition pr_val (n : Z) (q : list Z) : Z := match q with [x; y] => nth (Z.to_nat (2 * (x + 1) + y)) pr_vals 0 | _ => 0 end.
Definition pr_h : list (op Z) :=
  [NewSized (K2 1 center half) [(1, 1, 0); (0, 1, 0)]; Write 0 0 [-1; 0] [FC; FN] (nth 0 pr_vals 0); Write 0 0 [-1; 0] [FC; FP] (nth 1 pr_vals 0);
   Write 0 0 [0; 0] [FC; FN] (nth 2 pr_vals 0); Write 0 0 [0; 1] [FC; FN] (nth 3 pr_vals 0)].
Definition pr_w : world Z := match exec true (start nofail) pr_h with Some (w, _) => w | None => start nofail end.
Definition pr_aw : aworld Z := fst (aexec nofail a_start pr_h).
Definition pr_o : obj := match find pr_w 0 with Some (_, o) => o | None => O1 (mkPD1 (mkSize1 0 0 0) Null []) end.

Example C63_example :
  after nofail pr_h pr_w pr_aw /\ healthy pr_aw 0 /\ find pr_w 0 = Some (K2 1 center half, pr_o) /\ o_data pr_o <> Null /\
  slot_box (m_size pr_o) [center; half] = [(-1, 1); (0, 2)] /\
  (forall n q, 0 <= n < 1 -> in_box [(-1, 1); (0, 2)] q -> reads pr_w (K2 1 center half) pr_o n q (Some (pr_val n q))) /\
  match m_disp true (K2 1 center half) (heap pr_w) pr_o [] with Ret out tt => render_as fmt_g out | _ => "" end =
    "N = 0" ++ NL ++ "0.1, -2.5e+10, " ++ NL ++ "100000, 0.333333, " ++ NL ++ NL.
Proof.
  split; [split; [legal_tac|]; split; [reflexivity|]; eexists; vm_compute; reflexivity|].
  split; [intros k gs nb; vm_compute; discriminate|].
  split; [vm_compute; reflexivity|]. split; [vm_compute; discriminate|]. split; [vm_compute; reflexivity|]. split.
  - intros n q Hn Hq. assert (n = 0) by lia. subst n.
    inversion Hq as [|? x ? ? Hx H1]; subst. inversion H1 as [|? y ? ? Hy H2]; subst. inversion H2; subst. cbn [fst snd] in Hx, Hy.
    exists [x; y], [FC; FN].
    assert (D : (x = -1 \/ x = 0) /\ (y = 0 \/ y = 1)) by lia.
    destruct D as [[-> | ->] [-> | ->]]; eexists; (split; [split; [cbn; lia|change (m_size pr_o) with [(1, 1, 0); (0, 1, 0)]; cbn; lia]|]);
    (split; [reflexivity|]); (split; [vm_compute; reflexivity|vm_compute; reflexivity]).
  - vm_compute. reflexivity.
Qed.

Example C63_0D_example :
  exists o o' rs, ctor0 (V := Z) 2 = Ok o /\ exec0 2 true o [Write0 0 (literal_bits false 15 (-1)); Write0 1 (literal_bits true 1 (-300))] = Some (o', rs) /\
    match disp_data0 2 o' [] with Ret out tt => render_as fmt_g out | _ => "" end = "1.5, -1e-300, ".
Proof. eexists _, _, _. split; [reflexivity|]. split; [reflexivity|]. vm_compute. reflexivity. Qed.

Example C63_elements_example :
  literal true 123456 (-3) = "-123456e-3" /\ fmt_g (literal_bits true 123456 (-3)) = "-123.456" /\
  num64 (literal_bits true 42 0) = Fin (-42 * 2 ^ 1074) /\ fmt_g (literal_bits true 42 0) = "-42" /\
  fmt_g (2047 * 2 ^ 52) = "inf" /\ fmt_gf (127 * 2 ^ 23 + 1) = "1" /\ fmt_g (literal_bits false 9999995 (-1)) = "1e+06".
Proof. repeat (split; [vm_compute; reflexivity|]). vm_compute. reflexivity. Qed.
