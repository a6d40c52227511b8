(** write_plt with and without [echo]: the same file and log; what is printed. *)

From Coq Require Import ZArith Ascii String List Bool Lia.
From Verif Require Import Base M_Bytes M_TecZone M_TecFile M_Screen Spec_Loop Spec_Tec Spec_Plt Spec_Screen
  L_Base L_TecZone L_TecMin L_Plt L_Text L_TecWrite L_TecFile L_TecText L_TecWhole L_TecProp.
Import ListNotations.
Open Scope list_scope.
Open Scope string_scope.
Open Scope Z_scope.

(** ** Texts *)

Lemma concat_cons a l : String.concat "" (a :: l) = a ++ String.concat "" l.
Proof. apply concat_empty_cons. Qed.
Lemma concat_app l l' : String.concat "" (l ++ l') = String.concat "" l ++ String.concat "" l'.
Proof. induction l as [|a l IH]; [reflexivity|]. cbn [app]. rewrite !concat_cons, IH, append_assoc. reflexivity. Qed.
Lemma printed_app l l' : printed_lines (l ++ l') = printed_lines l ++ printed_lines l'.
Proof. unfold printed_lines. rewrite map_app. apply concat_app. Qed.
Lemma printed_cons a l : printed_lines (a :: l) = a ++ NL ++ printed_lines l.
Proof. unfold printed_lines. cbn [map]. rewrite concat_cons, append_assoc. reflexivity. Qed.
Lemma printed_one a : printed_lines [a] = a ++ NL.
Proof. rewrite printed_cons. cbn. reflexivity. Qed.
Lemma row_cons x l : row (x :: l) = " " ++ fmt_i x ++ row l.
Proof. unfold row. cbn [map]. rewrite concat_cons, append_assoc. reflexivity. Qed.
Lemma names_cons x l : names (x :: l) = " <" ++ x ++ ">" ++ names l.
Proof. unfold names. cbn [map]. rewrite concat_cons, !append_assoc. reflexivity. Qed.
Lemma ints_row l : ints_text l = Ok (row l).
Proof.
  induction l as [|x l IH]; [reflexivity|]. cbn [ints_text]. unfold int_text. rewrite sprintf_ok.
  - cbn [rbind]. rewrite IH. cbn [rbind]. rewrite row_cons, append_assoc. reflexivity.
  - rewrite length_append. pose proof (fmt_i_length x). cbn [String.length]. lia.
Qed.

Lemma bind_ret {S A B} (m : M S A) (k : A -> M S B) s s' a : m s = Ret s' a -> bind m k s = k a s'.
Proof. intros E. unfold bind. rewrite E. reflexivity. Qed.
Lemma bind_undef {S A B} (m : M S A) (k : A -> M S B) s : m s = Undef -> bind m k s = Undef.
Proof. intros E. unfold bind. rewrite E. reflexivity. Qed.

Section Seq.
Context {S A B C D : Type} (m1 : M S A) (m2 : M S B) (m3 : M S C).
Lemma seq2_ret (k : B -> M S D) s s' u : bind m1 (fun _ => m2) s = Ret s' u -> bind m1 (fun _ => bind m2 k) s = k u s'.
Proof. unfold bind. destruct (m1 s) as [s1 a| |]; intros E; try discriminate E. rewrite E. reflexivity. Qed.
Lemma seq2_undef (k : B -> M S D) s : bind m1 (fun _ => m2) s = Undef -> bind m1 (fun _ => bind m2 k) s = Undef.
Proof. unfold bind. destruct (m1 s) as [s1 a| |]; intros E; try discriminate E; [rewrite E|]; reflexivity. Qed.
Lemma seq3_ret (k : C -> M S D) s s' u :
  bind m1 (fun _ => bind m2 (fun _ => m3)) s = Ret s' u -> bind m1 (fun _ => bind m2 (fun _ => bind m3 k)) s = k u s'.
Proof.
  unfold bind. destruct (m1 s) as [s1 a| |]; intros E; try discriminate E. destruct (m2 s1) as [s2 b| |]; try discriminate E.
  rewrite E. reflexivity.
Qed.
Lemma seq3_undef (k : C -> M S D) s :
  bind m1 (fun _ => bind m2 (fun _ => m3)) s = Undef -> bind m1 (fun _ => bind m2 (fun _ => bind m3 k)) s = Undef.
Proof.
  unfold bind. destruct (m1 s) as [s1 a| |]; intros E; try discriminate E; [|reflexivity]. destruct (m2 s1) as [s2 b| |]; try discriminate E; [|reflexivity].
  rewrite E. reflexivity.
Qed.
End Seq.

Section Echo.
Variable echo : bool.
Definition sh (s : string) : string := if echo then s else "".
Lemma sh_app a b : sh (a ++ b) = sh a ++ sh b.
Proof. unfold sh. destruct echo; reflexivity. Qed.
Lemma sh_nil : sh "" = "".
Proof. unfold sh. destruct echo; reflexivity. Qed.
Lemma prt_eq {S} s w (st : S) : prt echo s (w, st) = Ret (w ++ sh s, st) tt.
Proof. reflexivity. Qed.

(** ** Lines of a zone *)

Lemma set_echo_id g : zl_set_echo (zl_echo g) g = g.
Proof. destruct g; reflexivity. Qed.
Lemma zecho_eq s st g : zecho s (st, g) = Ret (st, zl_set_echo (zl_echo g ++ [s])%list g) tt.
Proof. reflexivity. Qed.
Lemma zecho_add_eq l c s st g : zl_echo g = (l ++ [c])%list -> zecho_add s (st, g) = Ret (st, zl_set_echo (l ++ [(c ++ s)%string])%list g) tt.
Proof. intros E. unfold zecho_add. cbn [fst snd]. rewrite E, add_last_app. reflexivity. Qed.

Lemma zints_eq ns : forall w st g l c, zl_echo g = (l ++ [c])%list ->
  zints echo ns (w, (st, g)) = Ret (w ++ sh (row ns), (st, zl_set_echo (l ++ [(c ++ row ns)%string])%list g)) tt.
Proof.
  induction ns as [|x ns IH]; intros w st g l c E; cbn [zints].
  - unfold row. cbn [map String.concat]. rewrite sh_nil, !append_nil_r, <- E, set_echo_id. reflexivity.
  - unfold int_text. rewrite sprintf_ok.
    2: { rewrite length_append. pose proof (fmt_i_length x). cbn [String.length]. lia. }
    unfold bind, lift. rewrite prt_eq. unfold quiet. cbn [fst snd]. rewrite (zecho_add_eq l c) by exact E. cbn [fst snd].
    rewrite (IH _ _ _ l (c ++ " " ++ fmt_i x)) by reflexivity. rewrite row_cons, !sh_app, !append_assoc. reflexivity.
Qed.

(** The lines of flags 3 to 7. *)
Definition elines (gap : string) (z : zone) (r : real) : list string :=
  (if_on (z_echo z) 3 ("     Dim = " ++ fmt_i (r_rdim r) ++ "   Real_Max = [" ++ row (firstn (Z.to_nat (r_rdim r)) (list3 (r_max r))) ++ " ]")
  ++ if_on (z_echo z) 4 ("     Org_Max = [" ++ row (list3 (z_max z)) ++ " ]")
  ++ if_on (z_echo z) 5 ("     Skip = [" ++ row (list3 (z_skip z)) ++ " ]")
  ++ if_on (z_echo z) 6 ("     Begin = [" ++ row (list3 (z_begin z)) ++ " ]" ++ gap ++ "End = [" ++ row (list3 (z_end z)) ++ " ]")
  ++ (if z_strand z =? -1 then []
      else if_on (z_echo z) 7 ("     StrandId = " ++ fmt_i (z_strand z) ++ " SolutionTime = " ++ fmt_le (z_time z))))%list.

(** A step that adds the lines [Y] to the log and prints [X]. *)
Definition both (m' : M (string * (fs * zone_log)) unit) (m : M (fs * zone_log) unit) (X Y : list string) : Prop :=
  forall w st g, m (st, g) = Ret (st, zl_set_echo (zl_echo g ++ Y)%list g) tt /\
    m' (w, (st, g)) = Ret (w ++ sh (printed_lines X), (st, zl_set_echo (zl_echo g ++ Y)%list g)) tt.
Lemma both_bind m1' m1 X1 Y1 m2' m2 X2 Y2 : both m1' m1 X1 Y1 -> both m2' m2 X2 Y2 ->
  both (m1' ;;; m2') (m1 ;;; m2) (X1 ++ X2) (Y1 ++ Y2).
Proof.
  intros H1 H2 w st g. destruct (H1 w st g) as (E1 & E2). unfold bind. rewrite E1, E2.
  destruct (H2 (w ++ sh (printed_lines X1)) st (zl_set_echo (zl_echo g ++ Y1)%list g)) as (E3 & E4). rewrite E3, E4.
  rewrite printed_app, sh_app, append_assoc. cbn [zl_echo zl_set_echo]. rewrite <- app_assoc. split; reflexivity.
Qed.
Lemma both_if mode bit m' m x y : both m' m [x] [y] ->
  both (if Z.testbit mode bit then m' else ret tt) (if Z.testbit mode bit then m else ret tt) (if_on mode bit x) (if_on mode bit y).
Proof.
  intros H. unfold if_on. destruct (Z.testbit mode bit); [exact H|]. intros w st g. rewrite app_nil_r, set_echo_id.
  cbn [printed_lines map String.concat]. rewrite sh_nil, append_nil_r. split; reflexivity.
Qed.

(** A bracket of numbers. *)
Lemma both_row (r : res string) a ns : r = Ok (a ++ row ns ++ " ]") ->
  both (prt echo a ;;; quiet (zecho a) ;;; zints echo ns ;;; prt echo (" ]" ++ NL) ;;; quiet (zecho_add " ]"))
    (zecho_res r) [a ++ row ns ++ " ]"] [a ++ row ns ++ " ]"].
Proof.
  intros -> w st g. split; [reflexivity|]. unfold bind. rewrite prt_eq. unfold quiet at 1. cbn [fst snd]. rewrite zecho_eq. cbn [fst snd].
  rewrite (zints_eq ns _ _ _ (zl_echo g) a) by reflexivity. rewrite prt_eq. unfold quiet. cbn [fst snd].
  rewrite (zecho_add_eq (zl_echo g) (a ++ row ns)) by reflexivity. cbn [fst snd].
  rewrite printed_one, !sh_app, !append_assoc. reflexivity.
Qed.
Lemma both_res s : (Z.of_nat (String.length s) < 100) ->
  both (do* b := lift (sprintf 100 s) in prt echo (b ++ NL) ;;; quiet (zecho b)) (zecho_res (sprintf 100 s)) [s] [s].
Proof.
  intros H w st g. rewrite sprintf_ok by exact H. split; [reflexivity|]. unfold bind, lift. rewrite prt_eq. unfold quiet. cbn [fst snd].
  rewrite zecho_eq, printed_one. reflexivity.
Qed.

Lemma zone_echo_both z r : both (zone_echo_on echo z r) (zone_echo z r) (elines "   " z r) (elines " " z r).
Proof.
  unfold zone_echo_on, zone_echo, elines. apply both_bind; [|apply both_bind; [|apply both_bind; [|apply both_bind]]].
  - apply both_if. rewrite sprintf_ok.
    2: { rewrite !length_append. pose proof (fmt_i_length (r_rdim r)). cbn [String.length]. lia. }
    replace ("     Dim = " ++ fmt_i (r_rdim r) ++ "   Real_Max = [" ++ row (firstn (Z.to_nat (r_rdim r)) (list3 (r_max r))) ++ " ]")
      with (("     Dim = " ++ fmt_i (r_rdim r) ++ "   Real_Max = [") ++ row (firstn (Z.to_nat (r_rdim r)) (list3 (r_max r))) ++ " ]")
      by (rewrite !append_assoc; reflexivity).
    apply both_row. rewrite ints_row. reflexivity.
  - apply both_if, both_row. rewrite ints_row. reflexivity.
  - apply both_if, both_row. rewrite ints_row. reflexivity.
  - apply both_if. rewrite !ints_row. cbn [rbind]. intros w st g. split; [reflexivity|].
    set (a := "     Begin = ["). set (b := row (list3 (z_begin z))). set (c := row (list3 (z_end z))).
    unfold bind. rewrite prt_eq. unfold quiet at 1. cbn [fst snd]. rewrite zecho_eq. cbn [fst snd].
    rewrite (zints_eq _ _ _ _ (zl_echo g) a) by reflexivity. fold b. rewrite prt_eq. unfold quiet at 1. cbn [fst snd].
    rewrite (zecho_add_eq (zl_echo g) (a ++ b)) by reflexivity. cbn [fst snd]. rewrite prt_eq. unfold quiet at 1. cbn [fst snd].
    rewrite (zecho_add_eq (zl_echo g) ((a ++ b) ++ " ]")) by reflexivity. cbn [fst snd].
    rewrite (zints_eq _ _ _ _ (zl_echo g) (((a ++ b) ++ " ]") ++ " End = [")) by reflexivity. fold c. rewrite prt_eq. unfold quiet. cbn [fst snd].
    rewrite (zecho_add_eq (zl_echo g) ((((a ++ b) ++ " ]") ++ " End = [") ++ c)) by reflexivity. cbn [fst snd].
    rewrite printed_one. f_equal. f_equal.
    + change ("   " ++ "End = [" ++ c ++ " ]") with ("   End = [" ++ c ++ " ]"). rewrite !append_assoc, !sh_app. reflexivity.
    + rewrite !append_assoc. reflexivity.
  - destruct (z_strand z =? -1).
    + rewrite andb_false_r. intros w st g. rewrite app_nil_r, set_echo_id.
      cbn [printed_lines map String.concat]. rewrite sh_nil, append_nil_r. split; reflexivity.
    + rewrite andb_true_r. apply both_if, both_res. rewrite !length_append.
      pose proof (fmt_i_length (z_strand z)). pose proof (fmt_le_length (z_time z)). cbn [String.length]. lia.
Qed.

(** ** The loop over the variables *)

Definition body (vars : list string) (on : bool) (r : real) (k : nat) (p : tdata * buffer) : M (fs * zone_log) unit :=
  do* pos := tell in
  zdata_upd k (fun g => mkDL (dl_type g) (dl_size g) pos (dl_min g) (dl_max g)) ;;;
  do* n := lift (imul3 (r_max r)) in
  fwrite (snd p) (d_size (fst p)) (i2sz n) ;;;
  (if on then
     match nth_error vars k with
     | Some v => zecho_add (" <" ++ v ++ ">")
     | None => undef
     end
   else ret tt).
Definition body_on (vars : list string) (on : bool) (r : real) (k : nat) (p : tdata * buffer) : M (string * (fs * zone_log)) unit :=
  do* pos := quiet tell in
  quiet (zdata_upd k (fun g => mkDL (dl_type g) (dl_size g) pos (dl_min g) (dl_max g))) ;;;
  do* n := lift (imul3 (r_max r)) in
  quiet (fwrite (snd p) (d_size (fst p)) (i2sz n)) ;;;
  (if on then
     match nth_error vars k with
     | Some v => prt echo (" <" ++ c_str v ++ ">") ;;; quiet (zecho_add (" <" ++ v ++ ">"))
     | None => undef
     end
   else ret tt).

Lemma imul3_cases v : (exists n, imul3 v = Ok n) \/ imul3 v = UB.
Proof.
  unfold imul3, imul, ck. destruct (in_intb _); cbn [rbind]; [|auto]. destruct (in_intb _); eauto.
Qed.
Lemma peek_cases b o n : (exists l, peek b o n = Ok l) \/ peek b o n = UB.
Proof. unfold peek. destruct (_ && _); [|auto]. destruct (all_some _); eauto. Qed.

Ltac step := unfold bind at 1; unfold quiet at 1; cbn [fst snd].
(** The part of the body before the name is printed. *)
Lemma body_quiet vars on r k p (w : string) st g :
  (exists st' g', zl_echo g' = zl_echo g /\
     body vars on r k p (st, g) = (if on then match nth_error vars k with Some v => zecho_add (" <" ++ v ++ ">") | None => undef end else ret tt) (st', g') /\
     body_on vars on r k p (w, (st, g)) = (if on then match nth_error vars k with Some v => prt echo (" <" ++ c_str v ++ ">") ;;; quiet (zecho_add (" <" ++ v ++ ">")) | None => undef end else ret tt) (w, (st', g'))) \/
  (body vars on r k p (st, g) = Undef /\ body_on vars on r k p (w, (st, g)) = Undef).
Proof.
  unfold body, body_on.
  generalize (if on then match nth_error vars k with Some v => zecho_add (" <" ++ v ++ ">") | None => undef end else ret tt).
  generalize (if on then match nth_error vars k with Some v => prt echo (" <" ++ c_str v ++ ">") ;;; quiet (zecho_add (" <" ++ v ++ ">")) | None => undef end else ret tt).
  intros K' K. unfold quiet, fwrite, bind, tell, zdata_upd, lift, put. cbn [fst snd].
  destruct (disk st) as [d|] eqn:Ed; [|right; split; reflexivity]. cbn [fst snd].
  destruct (upd_nth k _ (zl_data g)) as [dl|]; [|right; split; reflexivity].
  destruct (imul3_cases (r_max r)) as [(n & ->)| ->]; [|right; split; reflexivity]. cbn [fst snd].
  destruct (peek_cases (snd p) 0 (d_size (fst p) * i2sz n)) as [(b & ->)| ->]; [|right; split; reflexivity]. cbn [fst snd].
  rewrite Ed. left. eexists _, _. split; [|split; reflexivity]. reflexivity.
Qed.

Definition names_c (l : list string) : string := names (map c_str l).
Lemma names_c_cons x l : names_c (x :: l) = " <" ++ c_str x ++ ">" ++ names_c l.
Proof. unfold names_c. cbn [map]. apply names_cons. Qed.

Lemma vloop_on vars r l : forall k w st g l0 c, zl_echo g = (l0 ++ [c])%list ->
  match for_each k l (body vars true r) (st, g) with
  | Ret (st', g') u => foreach k l (body_on vars true r) (w, (st, g)) = Ret (w ++ sh (names_c (firstn (length l) (skipn k vars))), (st', g')) u /\
      zl_echo g' = (l0 ++ [(c ++ names (firstn (length l) (skipn k vars)))%string])%list
  | Thr _ _ => False
  | Undef => foreach k l (body_on vars true r) (w, (st, g)) = Undef
  end.
Proof.
  induction l as [|p l IH]; intros k w st g l0 c E; cbn [for_each foreach].
  - cbn [ret length firstn]. change (names_c []) with "". change (names []) with "". rewrite sh_nil, !append_nil_r. split; [reflexivity|exact E].
  - unfold bind. destruct (body_quiet vars true r k p w st g) as [(st' & g' & Eg & -> & ->)|(-> & ->)]; [|reflexivity].
    destruct (nth_error vars k) as [v|] eqn:Ev; [|reflexivity]. rewrite E in Eg. rewrite (zecho_add_eq l0 c) by exact Eg.
    unfold bind. rewrite prt_eq. unfold quiet. cbn [fst snd]. rewrite (zecho_add_eq l0 c) by exact Eg. cbn [fst snd].
    specialize (IH (S k) (w ++ sh (" <" ++ c_str v ++ ">")) st' (zl_set_echo (l0 ++ [(c ++ " <" ++ v ++ ">")%string])%list g') l0 (c ++ " <" ++ v ++ ">") eq_refl).
    assert (ES : skipn k vars = v :: skipn (S k) vars).
    { clear - Ev. revert vars Ev. induction k as [|k IH]; intros [|a vars] Ev; try discriminate Ev; cbn in *; [injection Ev as ->; reflexivity|apply IH, Ev]. }
    rewrite ES. cbn [length firstn]. rewrite names_cons, names_c_cons.
    destruct (for_each (S k) l _ _) as [[s1 g1] u|? ?|]; [|exact IH|exact IH].
    destruct IH as (-> & ->). split.
    + rewrite !sh_app, !append_assoc. reflexivity.
    + rewrite !append_assoc. reflexivity.
Qed.
Lemma vloop_off vars r l : forall k w st g,
  match for_each k l (body vars false r) (st, g) with
  | Ret (st', g') u => foreach k l (body_on vars false r) (w, (st, g)) = Ret (w, (st', g')) u /\ zl_echo g' = zl_echo g
  | Thr _ _ => False
  | Undef => foreach k l (body_on vars false r) (w, (st, g)) = Undef
  end.
Proof.
  induction l as [|p l IH]; intros k w st g; cbn [for_each foreach].
  - split; reflexivity.
  - unfold bind. destruct (body_quiet vars false r k p w st g) as [(st' & g' & Eg & -> & ->)|(-> & ->)]; [|reflexivity].
    cbn [ret]. specialize (IH (S k) w st' g'). destruct (for_each (S k) l _ _) as [[s1 g1] u|? ?|]; [|exact IH|exact IH].
    destruct IH as (-> & IH). split; [reflexivity|congruence].
Qed.

(** ** The data of a zone *)

Definition lines_zone (cs : string -> string) (gap : string) (vars : list string) (z : zone) (r : real) (size : Z) : list string :=
  (elines gap z r ++ if_on (z_echo z) 2 ("     write variables:" ++ names (map cs vars))
   ++ if_on (z_echo z) 8 ("     zone size: " ++ megabytes size ++ "MB"))%list.

Lemma make_buf_length z r oom l : forall k st bufs st', make_buf z r oom k l st = Ret st' bufs -> length bufs = length l.
Proof.
  induction l as [|d l IH]; intros k st bufs st' H; cbn [make_buf] in H; [injection H as _ <-; reflexivity|].
  unfold bind, lift in H. destruct (make_buf1 z r (oom k) d) as [b| |]; try discriminate H. cbn in H.
  match type of H with match ?m with _ => _ end = _ => destruct m as [s1 bs|s1 x|] eqn:E; try discriminate H end.
  injection H as _ <-. cbn [length]. f_equal. eapply IH. exact E.
Qed.

(** Steps that leave the echo alone. *)
Definition same_echo {A} (m : M (fs * zone_log) A) : Prop :=
  forall st g, match m (st, g) with Ret (_, g') _ | Thr (_, g') _ => zl_echo g' = zl_echo g | Undef => True end.
Lemma same_bind {A B} (m : M (fs * zone_log) A) (k : A -> M (fs * zone_log) B) : same_echo m -> (forall a, same_echo (k a)) -> same_echo (bind m k).
Proof.
  intros H1 H2 st g. unfold bind. specialize (H1 st g). destruct (m (st, g)) as [[s' g'] a|[s' g'] x|]; [|exact H1|exact I].
  specialize (H2 a s' g'). destruct (k a (s', g')) as [[? ?] ?|[? ?] ?|]; try congruence.
Qed.
Lemma same_put b : same_echo (put b).
Proof. intros st g. unfold put. cbn [fst snd]. destruct (disk st); cbn; auto. Qed.
Lemma same_lift {A} (r : res A) : same_echo (lift r).
Proof. intros st g. unfold lift. destruct r; cbn; auto. Qed.
Lemma same_live n : same_echo (add_live n).
Proof. intros st g. reflexivity. Qed.
Lemma same_ret {A} (a : A) : same_echo (ret a).
Proof. intros st g. reflexivity. Qed.
Lemma same_upd k f : same_echo (zdata_upd k f).
Proof. intros st g. unfold zdata_upd. cbn [fst snd]. destruct (upd_nth _ _ _); cbn; auto. Qed.
Lemma same_each {A} (l : list A) f : (forall k a, same_echo (f k a)) -> forall k, same_echo (for_each k l f).
Proof. intros H. induction l as [|a l IH]; intros k; cbn [for_each]; [apply same_ret|]. apply same_bind; [apply H|intros _; apply IH]. Qed.
Lemma same_buf z r oom l : forall k, same_echo (make_buf z r oom k l).
Proof.
  induction l as [|d l IH]; intros k; cbn [make_buf]; [apply same_ret|]. apply same_bind; [apply same_lift|]. intros b.
  apply same_bind; [apply same_live|]. intros _. apply same_bind; [apply IH|]. intros bs. apply same_ret.
Qed.

(** Two runs: [X] printed and [Y] added to the echo at the end, which depend on the log at the end; nothing at an exception. *)
Definition tr {A} (m' : M (string * (fs * zone_log)) A) (m : M (fs * zone_log) A) (X Y : zone_log -> list string) : Prop :=
  forall w st g,
    match m (st, g) with
    | Ret (st', g') a => m' (w, (st, g)) = Ret (w ++ sh (printed_lines (X g')), (st', g')) a /\ zl_echo g' = (zl_echo g ++ Y g')%list
    | Thr (st', g') x => m' (w, (st, g)) = Thr (w, (st', g')) x /\ zl_echo g' = zl_echo g
    | Undef => m' (w, (st, g)) = Undef
    end.
Lemma tr_quiet {A B} (m : M (fs * zone_log) A) (k : A -> M (fs * zone_log) B) k' X Y (P : A -> Prop) :
  same_echo m -> (forall s s' a, m s = Ret s' a -> P a) -> (forall a, P a -> tr (k' a) (k a) X Y) -> tr (bind (quiet m) k') (bind m k) X Y.
Proof.
  intros H1 HP H2 w st g. unfold bind, quiet. cbn [fst snd]. specialize (H1 st g).
  destruct (m (st, g)) as [[s' g'] a|[s' g'] x|] eqn:E; [|split; [reflexivity|exact H1]|reflexivity].
  specialize (H2 a (HP _ _ _ E) w s' g'). destruct (k a (s', g')) as [[? ?] ?|[? ?] ?|]; try rewrite H1 in H2; exact H2.
Qed.

Lemma zone_data_tr vars oom z r : length (z_data z) = length vars ->
  tr (zone_data_on echo vars oom z r) (zone_data vars oom z r)
    (fun g => lines_zone c_str "   " vars z r (zl_size g)) (fun g => lines_zone (fun s => s) " " vars z r (zl_size g)).
Proof.
  intros Hlen. unfold zone_data_on, zone_data.
  apply (tr_quiet _ _ _ _ _ (fun _ => True)); [intros st g; unfold tell; cbn; destruct (disk st); cbn; auto|auto|intros pos_b _].
  apply (tr_quiet _ _ _ _ _ (fun _ => True)); [apply same_put|auto|intros _ _].
  apply (tr_quiet _ _ _ _ _ (fun _ => True)); [apply same_each; intros; apply same_put|auto|intros _ _].
  apply (tr_quiet _ _ _ _ _ (fun _ => True)); [apply same_put|auto|intros _ _].
  apply (tr_quiet _ _ _ _ _ (fun _ => True)); [apply same_put|auto|intros _ _].
  apply (tr_quiet _ _ _ _ _ (fun _ => True)); [apply same_put|auto|intros _ _].
  apply (tr_quiet _ _ _ _ _ (fun bufs => length bufs = length (z_data z))); [apply same_buf|intros s s' a; apply make_buf_length|intros bufs Hb].
  apply (tr_quiet _ _ _ _ _ (fun _ => True)); [|auto|intros _ _].
  { apply same_each. intros k p. apply same_bind; [apply same_lift|]. intros n. apply same_bind; [apply same_lift|]. intros [mn mx].
    apply same_bind; [apply same_put|]. intros _. apply same_bind; [apply same_put|]. intros _. apply same_upd. }
  fold (body_on vars (Z.testbit (z_echo z) 2) r). fold (body vars (Z.testbit (z_echo z) 2) r).
  assert (Hl : firstn (length (combine (z_data z) bufs)) (skipn 0 vars) = vars).
  { rewrite combine_length, Hb, Nat.min_id, Hlen. cbn [skipn]. apply firstn_all. }
  intros w st g. destruct (zone_echo_both z r w st g) as (E1 & E2). rewrite (bind_ret _ _ _ _ _ E1), (bind_ret _ _ _ _ _ E2).
  set (g1 := zl_set_echo (zl_echo g ++ elines " " z r) g). set (w1 := w ++ sh (printed_lines (elines "   " z r))).
  (* the variables *)
  set (X := if_on (z_echo z) 2 ("     write variables:" ++ names (map c_str vars))).
  set (Y := if_on (z_echo z) 2 ("     write variables:" ++ names vars)).
  assert (HV : match ((if Z.testbit (z_echo z) 2 then zecho "     write variables:" else ret tt) ;;;
                      for_each 0 (combine (z_data z) bufs) (body vars (Z.testbit (z_echo z) 2) r)) (st, g1) with
    | Ret (st', g') u =>
      ((if Z.testbit (z_echo z) 2 then prt echo "     write variables:" ;;; quiet (zecho "     write variables:") else ret tt) ;;;
       foreach 0 (combine (z_data z) bufs) (body_on vars (Z.testbit (z_echo z) 2) r) ;;;
       (if Z.testbit (z_echo z) 2 then prt echo NL else ret tt)) (w1, (st, g1)) = Ret (w1 ++ sh (printed_lines X), (st', g')) u /\
      zl_echo g' = (zl_echo g1 ++ Y)%list
    | Thr _ _ => False
    | Undef =>
      ((if Z.testbit (z_echo z) 2 then prt echo "     write variables:" ;;; quiet (zecho "     write variables:") else ret tt) ;;;
       foreach 0 (combine (z_data z) bufs) (body_on vars (Z.testbit (z_echo z) 2) r) ;;;
       (if Z.testbit (z_echo z) 2 then prt echo NL else ret tt)) (w1, (st, g1)) = Undef
    end).
  { unfold X, Y, if_on. destruct (Z.testbit (z_echo z) 2).
    - unfold bind. rewrite zecho_eq, prt_eq. unfold quiet at 1 2. cbn [fst snd]. rewrite zecho_eq. cbn [fst snd].
      pose proof (vloop_on vars r (combine (z_data z) bufs) 0 (w1 ++ sh "     write variables:") st
        (zl_set_echo (zl_echo g1 ++ ["     write variables:"]) g1) (zl_echo g1) "     write variables:" eq_refl) as H.
      destruct (for_each 0 _ _ _) as [[s' g'] u|? ?|]; [|exact H|rewrite H; reflexivity].
      destruct H as (-> & H). rewrite prt_eq, Hl in *. destruct u. split; [|exact H].
      rewrite printed_one, !sh_app, !append_assoc. reflexivity.
    - unfold bind. cbn [ret]. pose proof (vloop_off vars r (combine (z_data z) bufs) 0 w1 st g1) as H.
      destruct (for_each 0 _ _ _) as [[s' g'] u|? ?|]; [|exact H|rewrite H; reflexivity].
      destruct H as (-> & H). destruct u. cbn [printed_lines map String.concat]. rewrite sh_nil, append_nil_r, app_nil_r. split; [reflexivity|exact H]. }
  (* regroup *)
  match type of HV with match ?m with _ => _ end => destruct m as [[s2 g2] []|? ?|] eqn:E3 end; [|destruct HV|].
  2: { rewrite (seq2_undef _ _ _ _ E3), (seq3_undef _ _ _ _ _ HV). reflexivity. }
  destruct HV as (E4 & Eg). rewrite (seq2_ret _ _ _ _ _ _ E3), (seq3_ret _ _ _ _ _ _ _ E4). clear E3 E4.
  set (w2 := w1 ++ sh (printed_lines X)).
  unfold realise_buf, add_live, quiet, bind, tell, upd_snd. cbn [fst snd disk].
  destruct (disk s2) as [d|]; [|reflexivity]. cbn [fst snd].
  set (n := Z.of_nat (length d) - pos_b). set (st3 := mkFs _ _ _). set (g3 := zl_set_size n g2).
  assert (Eg3 : zl_echo g3 = (zl_echo g ++ elines " " z r ++ Y)%list).
  { change (zl_echo g3) with (zl_echo g2). rewrite Eg. change (zl_echo g1) with (zl_echo g ++ elines " " z r)%list. rewrite <- app_assoc. reflexivity. }
  assert (Ew : w2 = w ++ sh (printed_lines (elines "   " z r ++ X))) by (rewrite printed_app, sh_app, <- append_assoc; reflexivity).
  unfold lines_zone. rewrite map_id. fold X Y. unfold if_on. destruct (Z.testbit (z_echo z) 8).
  - unfold zecho_res, bind, lift. unfold megabytes. change (zl_size g3) with n.
    destruct (sprintf_cases 100 ("     zone size: " ++ fmt_fixed 1 n (2 ^ 20) ++ "MB")) as [[_ ->]|[_ ->]]; [|reflexivity].
    rewrite !zecho_eq. rewrite prt_eq. cbn [fst snd]. rewrite zecho_eq. cbn [zl_size zl_set_echo].
    change (zl_size g3) with n. cbn [zl_echo]. split.
    + rewrite Ew. rewrite !printed_app, printed_one, !sh_app, !append_assoc. reflexivity.
    + rewrite Eg3. rewrite <- !app_assoc. reflexivity.
  - cbn [ret]. rewrite !app_nil_r, Ew, Eg3. split; reflexivity.
Qed.

(** ** The zones of a file *)

Definition zline (i : nat) (z : zone) : string :=
  "--   write zone " ++ fmt_i (u2i (uwrap (Z.of_nat i + 1))) ++ ": " ++ c_str (z_name z) ++ "   --".
Definition zscreen (vars : list string) (i : nat) (z : zone) : list string :=
  (if_on (z_echo z) 0 (zline i z) ++ lines_zone c_str "   " vars z (real_of z) (data_size z) ++ if_on (z_echo z) 1 (zline i z))%list.
Definition zmarks (i : nat) (z : zone) : list string :=
  (if_on (z_echo z) 0 (zline i z) ++ [ZONE_LINE] ++ if_on (z_echo z) 1 (zline i z))%list.
Fixpoint each (F : nat -> zone -> list string) (i : nat) (l : list zone) : list string :=
  match l with [] => [] | z :: l' => (F i z ++ each F (S i) l')%list end.
Definition zecho_lines (vars : list string) (z : zone) : list string := lines_zone (fun s => s) " " vars z (real_of z) (data_size z).

Lemma line_on (b : bool) i z w st e f zs t :
  match (if b then fecho_res (zone_line i z) else ret tt) (st, flog e f zs t) with
  | Ret (st', g') u =>
      (if b then do* b := lift (zone_line i z) in prt echo (b ++ NL) ;;; quiet (fecho b) else ret tt) (w, (st, flog e f zs t)) =
        Ret (w ++ sh (printed_lines (if b then [zline i z] else [])), (st', g')) u /\
      st' = st /\ g' = flog e f zs (t ++ (if b then [zline i z] else []))
  | Thr _ _ => False
  | Undef => (if b then do* b := lift (zone_line i z) in prt echo (b ++ NL) ;;; quiet (fecho b) else ret tt) (w, (st, flog e f zs t)) = Undef
  end.
Proof.
  destruct b.
  - unfold fecho_res, bind, lift, zone_line. fold (zline i z). destruct (sprintf_cases 100 (zline i z)) as [[_ ->]|[_ ->]]; [|reflexivity].
    unfold fecho, upd_snd. cbn [fst snd]. rewrite prt_eq. unfold quiet. cbn [fst snd]. rewrite printed_one. repeat split.
  - cbn [ret printed_lines map String.concat]. rewrite sh_nil, append_nil_r, app_nil_r. repeat split.
Qed.

Definition fbody (e : env) (f : tfile) (i : nat) (p : zone * real) : M (fs * file_log) unit :=
  let z := fst p in
  (if Z.testbit (z_echo z) 0 then fecho_res (zone_line i z) else ret tt) ;;;
  on_zone i (zone_data (f_vars f) (e_oom e i) z (snd p)) ;;;
  fecho "#ZONE#" ;;;
  (if Z.testbit (z_echo z) 1 then fecho_res (zone_line i z) else ret tt).
Definition fbody_on (e : env) (f : tfile) (i : nat) (p : zone * real) : M (string * (fs * file_log)) unit :=
  let z := fst p in
  (if Z.testbit (z_echo z) 0 then
     do* b := lift (zone_line i z) in prt echo (b ++ NL) ;;; quiet (fecho b)
   else ret tt) ;;;
  on_zone_on i (zone_data_on echo (f_vars f) (e_oom e i) z (snd p)) ;;;
  quiet (fecho "#ZONE#") ;;;
  (if Z.testbit (z_echo z) 1 then
     do* b := lift (zone_line i z) in prt echo (b ++ NL) ;;; quiet (fecho b)
   else ret tt).

Lemma on_zone_on_eq {A} (m : M (string * (fs * zone_log)) A) pre x post w st e f t :
  on_zone_on (length pre) m (w, (st, flog e f (pre ++ x :: post) t)) =
  match m (w, (st, x)) with
  | Ret (w', (s', x')) a => Ret (w', (s', flog e f (pre ++ x' :: post) t)) a
  | Thr (w', (s', x')) er => Thr (w', (s', flog e f (pre ++ x' :: post) t)) er
  | Undef => Undef
  end.
Proof.
  unfold on_zone_on. cbn [fst snd flog fl_zones]. rewrite nth_error_mid. destruct (m (w, (st, x))) as [[w' [s' x']] a|[w' [s' x']] er|]; cbn [fst snd]; try rewrite upd_nth_app; reflexivity.
Qed.

Lemma on_zone_flog {A} (m : M (fs * zone_log) A) pre x post st e f t :
  on_zone (length pre) m (st, flog e f (pre ++ x :: post) t) =
  match m (st, x) with
  | Ret (s', x') a => Ret (s', flog e f (pre ++ x' :: post) t) a
  | Thr (s', x') er => Thr (s', flog e f (pre ++ x' :: post) t) er
  | Undef => Undef
  end.
Proof. rewrite (on_zone_eq m pre x post) by reflexivity. destruct (m (st, x)) as [[s' x'] a|[s' x'] er|]; reflexivity. Qed.

Lemma fbody_run e f done z rest d o v t w : zone_good (f_vars f) z -> data_size z < 2 ^ 63 ->
  match fbody e f (length done) (z, real_of z) (mkFs (Some d) o v, flog e f (done ++ log0 z :: rest) t) with
  | Ret (st, g) u =>
      fbody_on e f (length done) (z, real_of z) (w, (mkFs (Some d) o v, flog e f (done ++ log0 z :: rest) t)) =
        Ret (w ++ sh (printed_lines (zscreen (f_vars f) (length done) z)), (st, g)) u /\
      exists d' x, st = mkFs (Some d') o v /\ g = flog e f (done ++ x :: rest) (t ++ zmarks (length done) z) /\ zl_echo x = zecho_lines (f_vars f) z /\
        zfine e (length done) z
  | Thr (st, g) er =>
      fbody_on e f (length done) (z, real_of z) (w, (mkFs (Some d) o v, flog e f (done ++ log0 z :: rest) t)) =
        Thr (w ++ sh (printed_lines (if_on (z_echo z) 0 (zline (length done) z))), (st, g)) er /\
      (exists k, (k < length (z_data z))%nat /\ e_oom e (length done) k = true /\ needreal (real_of z) = true /\ forall k', (k' < k)%nat -> e_oom e (length done) k' = false) /\
      exists x, g = flog e f (done ++ x :: rest) (t ++ if_on (z_echo z) 0 (zline (length done) z)) /\ zl_echo x = []
  | Undef => fbody_on e f (length done) (z, real_of z) (w, (mkFs (Some d) o v, flog e f (done ++ log0 z :: rest) t)) = Undef
  end.
Proof.
  intros Hg Hs. unfold fbody, fbody_on. cbn [fst snd].
  assert (Hr : gather_real_size z = Ok (real_of z)) by (apply real_of_facts; apply Hg).
  set (i := length done).
  pose proof (line_on (Z.testbit (z_echo z) 0) i z w (mkFs (Some d) o v) e f (done ++ log0 z :: rest) t) as H1.
  set (L := if Z.testbit (z_echo z) 0 then fecho_res (zone_line i z) else ret tt) in *.
  set (L' := if Z.testbit (z_echo z) 0 then (do* b := lift (zone_line i z) in prt echo (b ++ NL) ;;; quiet (fecho b)) else ret tt) in *.
  unfold bind at 1. destruct (L _) as [[s1 g1] u1|[s1 g1] er1|] eqn:EL; [|destruct H1|].
  2: { unfold bind at 1. rewrite H1. reflexivity. }
  destruct H1 as (H1 & -> & ->). rewrite (bind_ret _ _ _ _ _ H1).
  set (w1 := w ++ sh _). clear H1 EL L L'.
  set (t1 := (t ++ (if Z.testbit (z_echo z) 0 then [zline i z] else []))%list).
  (* the data *)
  pose proof (zone_data_wp True (f_vars f) (e_oom e i) z (real_of z) d o v Hg Hr Hs) as HW.
  assert (Hl : length (z_data z) = length (f_vars f)) by apply Hg.
  pose proof (zone_data_tr (f_vars f) (e_oom e i) z (real_of z) Hl w1 (mkFs (Some d) o v) (log0 z)) as HT.
  unfold wp in HW. fold (log0 z) in HW.
  pose proof (on_zone_flog (zone_data (f_vars f) (e_oom e i) z (real_of z)) done (log0 z) rest (mkFs (Some d) o v) e f t1) as EZ.
  pose proof (on_zone_on_eq (zone_data_on echo (f_vars f) (e_oom e i) z (real_of z)) done (log0 z) rest w1 (mkFs (Some d) o v) e f t1) as EZ'.
  fold i in EZ, EZ'.
  destruct (zone_data (f_vars f) (e_oom e i) z (real_of z) (mkFs (Some d) o v, log0 z)) as [[s2 x2] u2|[s2 x2] er2|].
  2: { destruct HT as (HT & HE). rewrite HT in EZ'. destruct HW as (k & b & Hk & Ho & Hbe & Hn & E1 & _).
       unfold bind at 1. rewrite EZ. unfold bind. rewrite EZ'. split; [reflexivity|]. split; [exists k; auto|].
       exists x2. split; [reflexivity|exact HE]. }
  2: { rewrite HT in EZ'. unfold bind. rewrite EZ, EZ'. reflexivity. }
  destruct HT as (HT & HE). rewrite HT in EZ'. destruct HW as (vs & te & Hvs & Hfine & E1). injection E1 as -> ->.
  cbn [zl_size zl_echo log0 app] in HE, EZ'.
  rewrite (bind_ret _ _ _ _ _ EZ), (bind_ret _ _ _ _ _ EZ').
  set (x := mkZL z _ _ _ _ _ _) in *. set (w2 := w1 ++ sh _). set (st2 := mkFs _ o v).
  assert (E2 : fecho "#ZONE#" (st2, flog e f (done ++ x :: rest) t1) = Ret (st2, flog e f (done ++ x :: rest) (t1 ++ [ZONE_LINE])) tt) by reflexivity.
  rewrite (bind_ret _ _ _ _ _ E2).
  assert (E2' : quiet (fecho "#ZONE#") (w2, (st2, flog e f (done ++ x :: rest) t1)) = Ret (w2, (st2, flog e f (done ++ x :: rest) (t1 ++ [ZONE_LINE]))) tt) by reflexivity.
  rewrite (bind_ret _ _ _ _ _ E2').
  pose proof (line_on (Z.testbit (z_echo z) 1) i z w2 st2 e f (done ++ x :: rest) (t1 ++ [ZONE_LINE])) as H3.
  match goal with |- match ?a with _ => _ end => destruct a as [[s3 g3] u3|? ?|] end; [|destruct H3|exact H3].
  destruct H3 as (H3 & -> & ->). split.
  - rewrite H3. unfold w2, w1, zscreen, if_on. fold i. rewrite !printed_app, !sh_app, <- !append_assoc. reflexivity.
  - eexists _, x. split; [reflexivity|]. split; [|split; [exact HE|exact Hfine]]. unfold zmarks, t1, if_on. rewrite <- !app_assoc. reflexivity.
Qed.

Lemma zones_run e f zs : forall done d o v t w,
  Forall (zone_good (f_vars f)) zs -> Forall (fun z => data_size z < 2 ^ 63) zs ->
  match for_each (length done) (map (fun a => (a, real_of a)) zs) (fbody e f) (mkFs (Some d) o v, flog e f (done ++ map log0 zs) t) with
  | Ret (st, g) u =>
      foreach (length done) (map (fun a => (a, real_of a)) zs) (fbody_on e f) (w, (mkFs (Some d) o v, flog e f (done ++ map log0 zs) t)) =
        Ret (w ++ sh (printed_lines (each (zscreen (f_vars f)) (length done) zs)), (st, g)) u /\
      exists d' gs, st = mkFs (Some d') o v /\ g = flog e f (done ++ gs) (t ++ each zmarks (length done) zs) /\
        map zl_echo gs = map (zecho_lines (f_vars f)) zs
  | Thr (st, g) er => exists j z k, nth_error zs j = Some z /\
      foreach (length done) (map (fun a => (a, real_of a)) zs) (fbody_on e f) (w, (mkFs (Some d) o v, flog e f (done ++ map log0 zs) t)) =
        Thr (w ++ sh (printed_lines (each (zscreen (f_vars f)) (length done) (firstn j zs) ++ if_on (z_echo z) 0 (zline (length done + j) z))), (st, g)) er /\
      ((k < length (z_data z))%nat /\ e_oom e (length done + j) k = true /\ needreal (real_of z) = true /\
       forall k', (k' < k)%nat -> e_oom e (length done + j) k' = false) /\
      (forall j' z', (j' < j)%nat -> nth_error zs j' = Some z' -> zfine e (length done + j') z') /\
      exists gs, g = flog e f (done ++ gs) (t ++ each zmarks (length done) (firstn j zs) ++ if_on (z_echo z) 0 (zline (length done + j) z)) /\
        map zl_echo gs = (map (zecho_lines (f_vars f)) (firstn j zs) ++ repeat [] (length zs - j))%list
  | Undef =>
      foreach (length done) (map (fun a => (a, real_of a)) zs) (fbody_on e f) (w, (mkFs (Some d) o v, flog e f (done ++ map log0 zs) t)) = Undef
  end.
Proof.
  induction zs as [|z zs IH]; intros done d o v t w Hg Hs; cbn [map for_each foreach].
  - cbn [ret each]. change (printed_lines []) with "". rewrite sh_nil, append_nil_r. split; [reflexivity|]. exists d, []. rewrite !app_nil_r. auto.
  - pose proof (fbody_run e f done z (map log0 zs) d o v t w (Forall_inv Hg) (Forall_inv Hs)) as H1.
    unfold bind at 1. destruct (fbody e f (length done) (z, real_of z) _) as [[s1 g1] u1|[s1 g1] er1|].
    3: { unfold bind. rewrite H1. reflexivity. }
    2: { destruct H1 as (H1 & (k & Hk) & x & -> & Hx). exists O, z, k. rewrite Nat.add_0_r. split; [reflexivity|].
         unfold bind. rewrite H1. split; [reflexivity|]. split; [exact Hk|]. split; [intros; lia|].
         exists (x :: map log0 zs). split; [reflexivity|]. cbn [firstn map app length Nat.sub repeat]. rewrite Hx. f_equal.
         clear. induction zs as [|z zs IH]; [reflexivity|]. cbn [map length repeat]. rewrite IH. reflexivity. }
    destruct H1 as (H1 & d' & x & -> & -> & Hx & Hfine). rewrite (bind_ret _ _ _ _ _ H1).
    replace (done ++ x :: map log0 zs)%list with ((done ++ [x]) ++ map log0 zs)%list by (rewrite <- app_assoc; reflexivity).
    assert (Hlen : length (done ++ [x]) = S (length done)) by (rewrite app_length; cbn; lia).
    specialize (IH (done ++ [x])%list d' o v (t ++ zmarks (length done) z)%list (w ++ sh (printed_lines (zscreen (f_vars f) (length done) z)))
      (Forall_inv_tail Hg) (Forall_inv_tail Hs)). rewrite Hlen in IH.
    destruct (for_each (S (length done)) _ _ _) as [[s2 g2] u2|[s2 g2] er2|]; [| |exact IH].
    + destruct IH as (IH & d2 & gs & -> & -> & Hgs). split.
      * rewrite IH. cbn [each]. rewrite printed_app, sh_app, append_assoc. reflexivity.
      * exists d2, (x :: gs). split; [reflexivity|]. cbn [each map]. rewrite Hx, Hgs, <- !app_assoc. split; reflexivity.
    + destruct IH as (j & z' & k & Hj & IH & Hk & Hb & gs & -> & Hgs). exists (S j), z', k.
      rewrite <- plus_n_Sm. split; [exact Hj|]. split; [|split; [exact Hk|split]].
      * rewrite IH. cbn [each firstn]. rewrite !printed_app, !sh_app, !append_assoc. reflexivity.
      * intros [|j'] z1 Hj' Hz1; [cbn in Hz1; injection Hz1 as <-; rewrite Nat.add_0_r; exact Hfine|].
        rewrite <- plus_n_Sm. apply (Hb j' z1); [lia|exact Hz1].
      * exists (x :: gs). cbn [each firstn map app length Nat.sub]. rewrite Hx, Hgs, <- !app_assoc. split; reflexivity.
Qed.

(** ** Before and after the zones *)

Definition fname (cs : string -> string) (f : tfile) (time : string) : string :=
  (if Z.testbit (f_echo f) 5 then "[" ++ cs time ++ "] " else "") ++ "#### creat file " ++ cs (f_path f) ++ "/" ++ cs (f_name f) ++ ".plt ####".
Definition before (cs : string -> string) (e : env) (f : tfile) : list string :=
  (if_on (f_echo f) 0 (fname cs f (e_begin e)) ++ if_on (f_echo f) 2 ("     VAR:" ++ names (map cs (f_vars f))) ++
   if_on (f_echo f) 3 "-------------------------------------")%list.
Definition after (cs : string -> string) (e : env) (f : tfile) (size : Z) : list string :=
  (if_on (f_echo f) 4 ("     file size: " ++ megabytes size ++ " MB") ++
   if_on (f_echo f) 6 ("     using time : " ++ fmt_lf 5 (e_using e) ++ " s") ++
   if_on (f_echo f) 1 (fname cs f (e_end e)))%list.

Lemma quiet_ret {T A} (m : M T A) w s s' a : m s = Ret s' a -> quiet m (w, s) = Ret (w, s') a.
Proof. intros E. unfold quiet. cbn [fst snd]. rewrite E. reflexivity. Qed.
Lemma quiet_thr {T A} (m : M T A) w s s' a : m s = Thr s' a -> quiet m (w, s) = Thr (w, s') a.
Proof. intros E. unfold quiet. cbn [fst snd]. rewrite E. reflexivity. Qed.
Lemma bind_thr {S A B} (m : M S A) (k : A -> M S B) s s' x : m s = Thr s' x -> bind m k s = Thr s' x.
Proof. intros E. unfold bind. rewrite E. reflexivity. Qed.
Lemma echo_echo a b g : fl_set_echo a (fl_set_echo b g) = fl_set_echo a g.
Proof. reflexivity. Qed.
Lemma echo_self g : fl_set_echo (fl_echo g) g = g.
Proof. destruct g. reflexivity. Qed.

(** [says X Y m' m]: [m'] prints the lines [X], both add the lines [Y] to the echo, and nothing else of the log changes. *)
Definition says (X Y : list string) (m' : M (string * (fs * file_log)) unit) (m : M (fs * file_log) unit) : Prop :=
  forall w d o v g, exists d',
    m (mkFs (Some d) o v, g) = Ret (mkFs (Some d') o v, fl_set_echo (fl_echo g ++ Y) g) tt /\
    m' (w, (mkFs (Some d) o v, g)) = Ret (w ++ sh (printed_lines X), (mkFs (Some d') o v, fl_set_echo (fl_echo g ++ Y) g)) tt.
Lemma says_seq X1 Y1 m1' m1 X2 Y2 m2' m2 : says X1 Y1 m1' m1 -> says X2 Y2 m2' m2 -> says (X1 ++ X2) (Y1 ++ Y2) (m1' ;;; m2') (m1 ;;; m2).
Proof.
  intros H1 H2 w d o v g. destruct (H1 w d o v g) as (d1 & E1 & E1').
  destruct (H2 (w ++ sh (printed_lines X1)) d1 o v (fl_set_echo (fl_echo g ++ Y1) g)) as (d2 & E2 & E2').
  exists d2. rewrite (bind_ret _ _ _ _ _ E1), (bind_ret _ _ _ _ _ E1'), E2, E2', printed_app, sh_app, append_assoc.
  cbn [fl_echo fl_set_echo]. rewrite echo_echo, app_assoc. split; reflexivity.
Qed.
Definition plain (m : M (fs * file_log) unit) : Prop :=
  forall d o v g, exists d', m (mkFs (Some d) o v, g) = Ret (mkFs (Some d') o v, g) tt.
Lemma plain_put b : plain (put b).
Proof. intros d o v g. eexists. reflexivity. Qed.
Lemma plain_seq m1 m2 : plain m1 -> plain m2 -> plain (m1 ;;; m2).
Proof. intros H1 H2 d o v g. destruct (H1 d o v g) as (d1 & E1). destruct (H2 d1 o v g) as (d2 & E2). exists d2. rewrite (bind_ret _ _ _ _ _ E1). exact E2. Qed.
Lemma plain_each {A} (l : list A) F : (forall k a, plain (F k a)) -> forall k, plain (for_each k l F).
Proof. intros H. induction l as [|a l IH]; intros k; cbn [for_each]; [intros d o v g; exists d; reflexivity|apply plain_seq; auto]. Qed.
Lemma says_plain m : plain m -> says [] [] (quiet m) m.
Proof.
  intros H w d o v g. destruct (H d o v g) as (d' & E). exists d'. rewrite (quiet_ret _ _ _ _ _ E), E, app_nil_r, echo_self.
  change (printed_lines []) with "". rewrite sh_nil, append_nil_r. split; reflexivity.
Qed.
Lemma says_line (b : bool) s : says (if b then [s] else []) (if b then [s] else [])
  (if b then prt echo (s ++ NL) ;;; quiet (fecho s) else ret tt) (if b then fecho s else ret tt).
Proof.
  destruct b; intros w d o v g; exists d.
  - unfold bind. rewrite prt_eq, printed_one. split; reflexivity.
  - cbn [ret]. change (printed_lines []) with "". rewrite sh_nil, append_nil_r, app_nil_r, echo_self. split; reflexivity.
Qed.

Lemma says_name f bit time : says (if_on (f_echo f) bit (fname c_str f time)) (if_on (f_echo f) bit (fname (fun s => s) f time))
  (file_echo_on echo f bit time) (file_echo f bit time).
Proof.
  unfold file_echo_on, file_echo, if_on, fname. intros w d o v g. exists d. destruct (Z.testbit (f_echo f) bit).
  2: { cbn [ret]. change (printed_lines []) with "". rewrite sh_nil, append_nil_r, app_nil_r, echo_self. split; reflexivity. }
  rewrite printed_one. destruct (Z.testbit (f_echo f) 5).
  - set (a := "[" ++ time ++ "] ").
    assert (E1 : fecho a (mkFs (Some d) o v, g) = Ret (mkFs (Some d) o v, fl_set_echo (fl_echo g ++ [a])%list g) tt) by reflexivity.
    assert (E2 : fecho_add (file_line f) (mkFs (Some d) o v, fl_set_echo (fl_echo g ++ [a])%list g) =
                 Ret (mkFs (Some d) o v, fl_set_echo (fl_echo g ++ [(a ++ file_line f)%string])%list g) tt).
    { unfold fecho_add. cbn [fst snd fl_echo fl_set_echo]. rewrite add_last_app. reflexivity. }
    rewrite (bind_ret _ _ _ _ _ E1), E2. split; [reflexivity|].
    unfold bind. rewrite prt_eq, (quiet_ret _ _ _ _ _ E1), prt_eq, (quiet_ret _ _ _ _ _ E2).
    rewrite append_assoc, <- sh_app, !append_assoc. reflexivity.
  - split; [reflexivity|]. unfold bind, ret at 1. rewrite prt_eq.
    assert (N : forall s, "" ++ s = s) by reflexivity. rewrite !N, !append_assoc. reflexivity.
Qed.

Lemma vars_loop (l : list string) : forall k w d o v g t x, fl_echo g = (t ++ [x])%list -> exists d',
  for_each k l (fun _ v => put (w_string v) ;;; fecho_add (" <" ++ v ++ ">")) (mkFs (Some d) o v, g) =
    Ret (mkFs (Some d') o v, fl_set_echo (t ++ [(x ++ names l)%string]) g) tt /\
  foreach k l (fun _ v => quiet (put (w_string v)) ;;; prt echo (" <" ++ c_str v ++ ">") ;;; quiet (fecho_add (" <" ++ v ++ ">"))) (w, (mkFs (Some d) o v, g)) =
    Ret (w ++ sh (names (map c_str l)), (mkFs (Some d') o v, fl_set_echo (t ++ [(x ++ names l)%string]) g)) tt.
Proof.
  induction l as [|a l IH]; intros k w d o v g t x E; cbn [for_each foreach map].
  - exists d. change (names []) with "". rewrite sh_nil, !append_nil_r, <- E, echo_self. split; reflexivity.
  - assert (E1 : put (w_string a) (mkFs (Some d) o v, g) = Ret (mkFs (Some (d ++ w_string a)%list) o v, g) tt) by reflexivity.
    set (g1 := fl_set_echo (t ++ [(x ++ " <" ++ a ++ ">")%string])%list g).
    assert (E2 : fecho_add (" <" ++ a ++ ">") (mkFs (Some (d ++ w_string a)%list) o v, g) = Ret (mkFs (Some (d ++ w_string a)%list) o v, g1) tt).
    { unfold fecho_add. cbn [fst snd]. rewrite E, add_last_app. reflexivity. }
    destruct (IH (S k) (w ++ sh (" <" ++ c_str a ++ ">")) (d ++ w_string a)%list o v g1 t (x ++ " <" ++ a ++ ">")%string eq_refl) as (d' & H1 & H2).
    exists d'.
    assert (A1 : (put (w_string a) ;;; fecho_add (" <" ++ a ++ ">")) (mkFs (Some d) o v, g) = Ret (mkFs (Some (d ++ w_string a)%list) o v, g1) tt)
      by (rewrite (bind_ret _ _ _ _ _ E1); exact E2).
    assert (A2 : (quiet (put (w_string a)) ;;; prt echo (" <" ++ c_str a ++ ">") ;;; quiet (fecho_add (" <" ++ a ++ ">"))) (w, (mkFs (Some d) o v, g)) =
      Ret (w ++ sh (" <" ++ c_str a ++ ">"), (mkFs (Some (d ++ w_string a)%list) o v, g1)) tt).
    { rewrite (bind_ret _ _ _ _ _ (quiet_ret _ _ _ _ _ E1)), (bind_ret _ _ _ _ _ (prt_eq _ _ _)). exact (quiet_ret _ _ _ _ _ E2). }
    rewrite (bind_ret _ _ _ _ _ A1), (bind_ret _ _ _ _ _ A2), H1, H2.
    unfold g1. rewrite echo_echo, !names_cons, !append_assoc, <- sh_app, !append_assoc. split; reflexivity.
Qed.

Lemma foreach_quiet {A} (l : list A) (F : nat -> A -> M (fs * file_log) unit) : forall k w s,
  foreach k l (fun k a => quiet (F k a) ;;; ret tt) (w, s) = quiet (for_each k l F) (w, s).
Proof.
  induction l as [|a l IH]; intros k w s; [reflexivity|]. cbn [for_each foreach]. unfold bind at 1 2. unfold quiet at 1. unfold quiet in IH at 2. unfold quiet at 2. cbn [fst snd] in *. unfold bind.
  destruct (F k a s) as [s1 []|s1 x|]; [|reflexivity|reflexivity]. cbn [ret]. rewrite IH. reflexivity.
Qed.

Lemma says_head f rs : says (if_on (f_echo f) 2 ("     VAR:" ++ names (map c_str (f_vars f)))) (if_on (f_echo f) 2 ("     VAR:" ++ names (f_vars f)))
  (file_head_on echo f rs) (file_head f rs).
Proof.
  unfold file_head_on, file_head.
  do 5 (match goal with |- says ?a ?b _ _ => apply (says_seq [] [] _ _ a b) end; [apply says_plain, plain_put|]).
  assert (H2 : says [] []
    (quiet (for_each 0 (combine (f_zones f) rs) (fun _ p => put (zone_head (fst p) (snd p)))) ;;;
     quiet (for_each 0 (f_aux f) (fun _ p => put (w_f32 F799) ;;; put (w_string (fst p)) ;;; put (w_int 0) ;;; put (w_string (snd p)))))
    (for_each 0 (combine (f_zones f) rs) (fun _ p => put (zone_head (fst p) (snd p))) ;;;
     for_each 0 (f_aux f) (fun _ p => put (w_f32 F799) ;;; put (w_string (fst p)) ;;; put (w_int 0) ;;; put (w_string (snd p))))).
  { apply (says_seq [] [] _ _ [] []); apply says_plain, plain_each; intros; repeat apply plain_seq; apply plain_put. }
  match goal with |- says ?a ?b _ _ => rewrite <- (app_nil_r a), <- (app_nil_r b) end. unfold if_on.
  destruct (Z.testbit (f_echo f) 2).
  - intros w d o v g.
    destruct (vars_loop (f_vars f) 0 (w ++ sh "     VAR:") d o v (fl_set_echo (fl_echo g ++ ["     VAR:"])%list g) (fl_echo g) "     VAR:" eq_refl) as (d1 & E1 & E1').
    rewrite echo_echo in E1, E1'.
    destruct (H2 (w ++ sh (printed_lines ["     VAR:" ++ names (map c_str (f_vars f))])) d1 o v (fl_set_echo (fl_echo g ++ [("     VAR:" ++ names (f_vars f))%string])%list g)) as (d2 & E2 & E2').
    change (printed_lines []) with "" in E2'. rewrite sh_nil, append_nil_r in E2'. rewrite !app_nil_r in *.
    rewrite echo_self in E2, E2'.
    exists d2. split.
    + unfold bind at 1. unfold fecho, upd_snd. cbn [fst snd]. rewrite (bind_ret _ _ _ _ _ E1). exact E2.
    + assert (A : (prt echo "     VAR:" ;;; quiet (fecho "     VAR:")) (w, (mkFs (Some d) o v, g)) =
        Ret (w ++ sh "     VAR:", (mkFs (Some d) o v, fl_set_echo (fl_echo g ++ ["     VAR:"])%list g)) tt) by reflexivity.
      rewrite (bind_ret _ _ _ _ _ A).
      rewrite (bind_ret _ _ _ _ _ E1'), (bind_ret _ _ _ _ _ (prt_eq _ _ _)), <- E2'. f_equal. f_equal.
      rewrite printed_one, !sh_app, !append_assoc. reflexivity.
  - cbn [app].
    assert (HP : plain (for_each 0 (f_vars f) (fun _ v => put (w_string v) ;;; ret tt))).
    { apply plain_each. intros k a d o v g. eexists. reflexivity. }
    intros w d o v g. destruct (HP d o v g) as (d1 & E1). destruct (H2 w d1 o v g) as (d2 & E2 & E2'). exists d2.
    split.
    + unfold bind at 1. cbn [ret]. rewrite (bind_ret _ _ _ _ _ E1). exact E2.
    + unfold bind at 1. cbn [ret].
      assert (E1' : foreach 0 (f_vars f) (fun _ v => quiet (put (w_string v)) ;;; ret tt) (w, (mkFs (Some d) o v, g)) = Ret (w, (mkFs (Some d1) o v, g)) tt).
      { rewrite (foreach_quiet (f_vars f) (fun _ v => put (w_string v))). apply quiet_ret. rewrite <- E1. clear.
        generalize O as k. revert d. induction (f_vars f) as [|a l IH]; intros d k; [reflexivity|]. cbn [for_each]. unfold bind, put, ret. cbn [disk fst snd opened live]. apply IH. }
      rewrite (bind_ret _ _ _ _ _ E1'). unfold bind at 1. cbn [ret]. exact E2'.
Qed.

Lemma sized_on (b : bool) s w st g :
  match (if b then fecho_res (sprintf 100 s) else ret tt) (st, g) with
  | Ret (st', g') u =>
      (if b then do* b := lift (sprintf 100 s) in prt echo (b ++ NL) ;;; quiet (fecho b) else ret tt) (w, (st, g)) =
        Ret (w ++ sh (printed_lines (if b then [s] else [])), (st', g')) u /\
      st' = st /\ g' = fl_set_echo (fl_echo g ++ (if b then [s] else [])) g
  | Thr _ _ => False
  | Undef => (if b then do* b := lift (sprintf 100 s) in prt echo (b ++ NL) ;;; quiet (fecho b) else ret tt) (w, (st, g)) = Undef
  end.
Proof.
  destruct b.
  - unfold fecho_res, bind, lift. destruct (sprintf_cases 100 s) as [[_ ->]|[_ ->]]; [|reflexivity].
    unfold fecho, upd_snd. cbn [fst snd]. rewrite prt_eq. unfold quiet. cbn [fst snd]. rewrite printed_one. repeat split.
  - cbn [ret]. change (printed_lines []) with "". rewrite sh_nil, append_nil_r, app_nil_r, echo_self. repeat split.
Qed.

Definition tail (e : env) (f : tfile) : M (fs * file_log) unit :=
  do* pos := tell in
  upd_snd (fl_set_size pos) ;;;
  (if Z.testbit (f_echo f) 4 then
     fecho_res (sprintf 100 ("     file size: " ++ fmt_fixed 1 pos (2 ^ 20) ++ " MB")) else ret tt) ;;;
  close ;;;
  upd_snd (fl_set_using (e_using e)) ;;;
  (if Z.testbit (f_echo f) 6 then
     fecho_res (sprintf 100 ("     using time : " ++ fmt_lf 5 (e_using e) ++ " s")) else ret tt) ;;;
  upd_snd (fl_set_end (e_end e)) ;;;
  file_echo f 1 (e_end e) ;;;
  do* l := get_snd in
  do* l' := lift (gen_texts l) in
  upd_snd (fun _ => l').
Definition tail_on (e : env) (f : tfile) : M (string * (fs * file_log)) unit :=
  do* pos := quiet tell in
  quiet (upd_snd (fl_set_size pos)) ;;;
  (if Z.testbit (f_echo f) 4 then
     do* b := lift (sprintf 100 ("     file size: " ++ fmt_fixed 1 pos (2 ^ 20) ++ " MB")) in
     prt echo (b ++ NL) ;;; quiet (fecho b)
   else ret tt) ;;;
  quiet close ;;;
  quiet (upd_snd (fl_set_using (e_using e))) ;;;
  (if Z.testbit (f_echo f) 6 then
     do* b := lift (sprintf 100 ("     using time : " ++ fmt_lf 5 (e_using e) ++ " s")) in
     prt echo (b ++ NL) ;;; quiet (fecho b)
   else ret tt) ;;;
  quiet (upd_snd (fl_set_end (e_end e))) ;;;
  file_echo_on echo f 1 (e_end e) ;;;
  do* l := quiet get_snd in
  do* l' := lift (gen_texts l) in
  quiet (upd_snd (fun _ => l')).

Lemma tail_run e f d o v gs t w :
  match tail e f (mkFs (Some d) o v, flog e f gs t) with
  | Ret (s, g) u =>
      tail_on e f (w, (mkFs (Some d) o v, flog e f gs t)) = Ret (w ++ sh (printed_lines (after c_str e f (fl_size g))), (s, g)) u /\
      fl_echo g = (t ++ after (fun s => s) e f (fl_size g))%list /\ map zl_echo (fl_zones g) = map zl_echo gs
  | Thr _ _ => False
  | Undef => tail_on e f (w, (mkFs (Some d) o v, flog e f gs t)) = Undef
  end.
Proof.
  unfold tail, tail_on. set (n := Z.of_nat (length d)). set (g0 := flog e f gs t).
  assert (T : tell (mkFs (Some d) o v, g0) = Ret (mkFs (Some d) o v, g0) n) by reflexivity.
  rewrite (bind_ret _ _ _ _ _ T), (bind_ret _ _ _ _ _ (quiet_ret _ w _ _ _ T)). clear T.
  assert (T : upd_snd (fl_set_size n) (mkFs (Some d) o v, g0) = Ret (mkFs (Some d) o v, fl_set_size n g0) tt) by reflexivity.
  rewrite (bind_ret _ _ _ _ _ T), (bind_ret _ _ _ _ _ (quiet_ret _ w _ _ _ T)). clear T.
  pose proof (sized_on (Z.testbit (f_echo f) 4) ("     file size: " ++ fmt_fixed 1 n (2 ^ 20) ++ " MB") w (mkFs (Some d) o v) (fl_set_size n g0)) as H1.
  match goal with |- match bind ?m ?k ?s with _ => _ end => unfold bind at 1; destruct (m s) as [[s1 g1] u1|? ?|] end; [|destruct H1|].
  2: { rewrite (bind_undef _ _ _ H1). reflexivity. }
  destruct H1 as (H1 & -> & ->). rewrite (bind_ret _ _ _ _ _ H1). clear H1.
  fold (if_on (f_echo f) 4 ("     file size: " ++ fmt_fixed 1 n (2 ^ 20) ++ " MB")).
  set (w1 := w ++ _). set (g1 := fl_set_echo _ _).
  assert (T : close (mkFs (Some d) o v, g1) = Ret (mkFs (Some d) false v, g1) tt) by reflexivity.
  rewrite (bind_ret _ _ _ _ _ T), (bind_ret _ _ _ _ _ (quiet_ret _ w1 _ _ _ T)). clear T.
  assert (T : upd_snd (fl_set_using (e_using e)) (mkFs (Some d) false v, g1) = Ret (mkFs (Some d) false v, fl_set_using (e_using e) g1) tt) by reflexivity.
  rewrite (bind_ret _ _ _ _ _ T), (bind_ret _ _ _ _ _ (quiet_ret _ w1 _ _ _ T)). clear T.
  pose proof (sized_on (Z.testbit (f_echo f) 6) ("     using time : " ++ fmt_lf 5 (e_using e) ++ " s") w1 (mkFs (Some d) false v) (fl_set_using (e_using e) g1)) as H1.
  match goal with |- match bind ?m ?k ?s with _ => _ end => unfold bind at 1; destruct (m s) as [[s2 g2] u2|? ?|] end; [|destruct H1|].
  2: { rewrite (bind_undef _ _ _ H1). reflexivity. }
  destruct H1 as (H1 & -> & ->). rewrite (bind_ret _ _ _ _ _ H1). clear H1.
  fold (if_on (f_echo f) 6 ("     using time : " ++ fmt_lf 5 (e_using e) ++ " s")).
  set (w2 := w1 ++ _). set (g2 := fl_set_echo _ _).
  assert (T : upd_snd (fl_set_end (e_end e)) (mkFs (Some d) false v, g2) = Ret (mkFs (Some d) false v, fl_set_end (e_end e) g2) tt) by reflexivity.
  rewrite (bind_ret _ _ _ _ _ T), (bind_ret _ _ _ _ _ (quiet_ret _ w2 _ _ _ T)). clear T.
  destruct (says_name f 1 (e_end e) w2 d false v (fl_set_end (e_end e) g2)) as (d1 & E1 & E1').
  rewrite (bind_ret _ _ _ _ _ E1), (bind_ret _ _ _ _ _ E1').
  set (w3 := w2 ++ _). set (g3 := fl_set_echo _ _).
  assert (T : get_snd (mkFs (Some d1) false v, g3) = Ret (mkFs (Some d1) false v, g3) g3) by reflexivity.
  rewrite (bind_ret _ _ _ _ _ T), (bind_ret _ _ _ _ _ (quiet_ret _ w3 _ _ _ T)). clear T.
  destruct (gen_texts_cases g3) as [(_ & j & x & gs' & Eg & Et & _)|[_ Eg]]; [|unfold bind, lift; rewrite Eg; reflexivity].
  unfold bind, lift. rewrite Eg. unfold upd_snd, quiet. cbn [fst snd].
  change (fl_size (fl_set_text (fl_json g3 ++ j) (fl_xml g3 ++ x) (fl_set_zones gs' g3))) with n. split; [|split].
  - unfold w3, w2, w1, after, megabytes. rewrite !printed_app, !sh_app, !append_assoc. reflexivity.
  - change (fl_echo (fl_set_text (fl_json g3 ++ j) (fl_xml g3 ++ x) (fl_set_zones gs' g3))) with (fl_echo g3).
    unfold g3, g2, g1, after, megabytes. cbn [fl_echo fl_set_echo fl_set_end fl_set_using fl_set_size g0 flog]. rewrite <- !app_assoc. reflexivity.
  - change (fl_zones (fl_set_text (fl_json g3 ++ j) (fl_xml g3 ++ x) (fl_set_zones gs' g3))) with gs'.
    change (fl_zones g3) with gs in Et. clear - Et. revert gs Et. induction gs' as [|a l IH]; intros [|b gs] Et; try discriminate Et; [reflexivity|].
    cbn [map] in *. injection Et as _ _ _ _ E0 E. rewrite (IH gs E), E0. reflexivity.
Qed.

(** ** write_plt *)

Definition starves (e : env) (f : tfile) (j k : nat) : Prop :=
  exists z, nth_error (f_zones f) j = Some z /\
    ((k < length (z_data z))%nat /\ e_oom e j k = true /\ needreal (real_of z) = true /\ forall k', (k' < k)%nat -> e_oom e j k' = false) /\
    forall j' z', (j' < j)%nat -> nth_error (f_zones f) j' = Some z' -> zfine e j' z'.

Lemma write_on e f : file_wf f -> plt_size f < 2 ^ 63 ->
  match write_plt e f with
  | Ret (s, g) u =>
      write_plt_on echo e f =
        Ret (sh (printed_lines (before c_str e f ++ each (zscreen (f_vars f)) 0 (f_zones f) ++ after c_str e f (fl_size g))), (s, g)) u /\
      fl_echo g = (before (fun s => s) e f ++ each zmarks 0 (f_zones f) ++ after (fun s => s) e f (fl_size g))%list /\
      map zl_echo (fl_zones g) = map (zecho_lines (f_vars f)) (f_zones f)
  | Thr (s, g) x =>
      ((refused f \/ e_open e = false) /\ write_plt_on echo e f = Thr ("", (s, g)) x) \/
      (~ refused f /\ e_open e = true /\ exists j z k, nth_error (f_zones f) j = Some z /\ starves e f j k /\
        write_plt_on echo e f = Thr (sh (printed_lines (before c_str e f ++ each (zscreen (f_vars f)) 0 (firstn j (f_zones f)) ++
          if_on (z_echo z) 0 (zline j z))), (s, g)) x /\
        fl_echo g = (before (fun s => s) e f ++ each zmarks 0 (firstn j (f_zones f)) ++ if_on (z_echo z) 0 (zline j z))%list /\
        map zl_echo (fl_zones g) = (map (zecho_lines (f_vars f)) (firstn j (f_zones f)) ++ repeat [] (length (f_zones f) - j))%list)
  | Undef => write_plt_on echo e f = Undef
  end.
Proof.
  intros Hw Hsz. unfold write_plt, write_plt_on.
  change (file_log_of e f) with (start_log e f []).
  destruct (refused_dec f Hw) as [Hr|Hr].
  { unfold write_plt_body, write_plt_on_body. destruct (file_pre_bad e f (mkFs None false 0) Hw Hr) as (zs & m & E).
    rewrite (bind_thr _ _ _ _ _ E), (bind_thr _ _ _ _ _ (quiet_thr _ "" _ _ _ E)). left. split; [left; exact Hr|reflexivity]. }
  destruct (not_refused_good f Hw Hr) as (Hv & Hz & Hg).
  unfold write_plt_body, write_plt_on_body.
  pose proof (file_pre_ok e f (mkFs None false 0) Hv Hz Hg) as E0.
  rewrite (bind_ret _ _ _ _ _ E0), (bind_ret _ _ _ _ _ (quiet_ret _ "" _ _ _ E0)). clear E0.
  destruct (e_open e) eqn:Eo.
  2: { assert (E1 : exists s x, open_wb e f (mkFs None false 0, start_log e f (map log0 (f_zones f))) = Thr s x).
       { unfold open_wb, catch_err. rewrite Eo. eexists _, _. reflexivity. }
       destruct E1 as ([s g] & x & E1). rewrite (bind_thr _ _ _ _ _ E1), (bind_thr _ _ _ _ _ (quiet_thr _ "" _ _ _ E1)).
       left. split; [right; reflexivity|reflexivity]. }
  set (g0 := flog e f (map log0 (f_zones f)) []).
  assert (E1 : open_wb e f (mkFs None false 0, g0) = Ret (mkFs (Some []) true 0, g0) tt).
  { unfold open_wb, catch_err. rewrite Eo. reflexivity. }
  change (start_log e f (map log0 (f_zones f))) with g0.
  rewrite (bind_ret _ _ _ _ _ E1), (bind_ret _ _ _ _ _ (quiet_ret _ "" _ _ _ E1)). clear E1.
  (* before the zones *)
  fold (tail e f). fold (tail_on e f).
  assert (HB : forall w d o v, exists d',
    match (file_echo f 0 (e_begin e) ;;; file_head f (map real_of (f_zones f)) ;;; put (w_f32 F357) ;;;
     (if Z.testbit (f_echo f) 3 then fecho "-------------------------------------" else ret tt) ;;; (file_data e f (map real_of (f_zones f)) ;;; tail e f))
      (mkFs (Some d) o v, g0) with r => r end =
    (file_data e f (map real_of (f_zones f)) ;;; tail e f) (mkFs (Some d') o v, flog e f (map log0 (f_zones f)) (before (fun s => s) e f)) /\
    (file_echo_on echo f 0 (e_begin e) ;;; file_head_on echo f (map real_of (f_zones f)) ;;; quiet (put (w_f32 F357)) ;;;
     (if Z.testbit (f_echo f) 3 then prt echo ("-------------------------------------" ++ NL) ;;; quiet (fecho "-------------------------------------") else ret tt) ;;;
     (file_data_on echo e f (map real_of (f_zones f)) ;;; tail_on e f)) (w, (mkFs (Some d) o v, g0)) =
    (file_data_on echo e f (map real_of (f_zones f)) ;;; tail_on e f)
      (w ++ sh (printed_lines (before c_str e f)), (mkFs (Some d') o v, flog e f (map log0 (f_zones f)) (before (fun s => s) e f)))).
  { intros w d o v.
    destruct (says_name f 0 (e_begin e) w d o v g0) as (d1 & E1 & E1').
    rewrite (bind_ret _ _ _ _ _ E1), (bind_ret _ _ _ _ _ E1'). clear E1 E1'. set (w1 := w ++ _). set (g1 := fl_set_echo _ _).
    destruct (says_head f (map real_of (f_zones f)) w1 d1 o v g1) as (d2 & E1 & E1').
    rewrite (bind_ret _ _ _ _ _ E1), (bind_ret _ _ _ _ _ E1'). clear E1 E1'. set (w2 := w1 ++ _). set (g2 := fl_set_echo _ _).
    assert (E1 : put (w_f32 F357) (mkFs (Some d2) o v, g2) = Ret (mkFs (Some (d2 ++ w_f32 F357)%list) o v, g2) tt) by reflexivity.
    rewrite (bind_ret _ _ _ _ _ E1), (bind_ret _ _ _ _ _ (quiet_ret _ w2 _ _ _ E1)). clear E1.
    destruct (says_line (Z.testbit (f_echo f) 3) "-------------------------------------" w2 (d2 ++ w_f32 F357)%list o v g2) as (d3 & E1 & E1').
    rewrite (bind_ret _ _ _ _ _ E1), (bind_ret _ _ _ _ _ E1'). clear E1 E1'. exists d3.
    assert (Eg : fl_set_echo (fl_echo g2 ++ (if Z.testbit (f_echo f) 3 then ["-------------------------------------"] else []))%list g2 =
                 flog e f (map log0 (f_zones f)) (before (fun s => s) e f)).
    { unfold g2, g1, g0, flog, before, if_on, fl_set_echo. cbn [fl_echo]. rewrite map_id, <- !app_assoc. reflexivity. }
    rewrite Eg. split; [reflexivity|]. f_equal. f_equal. unfold w2, w1, before. fold (if_on (f_echo f) 3 "-------------------------------------").
    rewrite !printed_app, !sh_app, !append_assoc. reflexivity. }
  destruct (HB "" [] true 0) as (d & E1 & E1'). cbv beta in E1. rewrite E1, E1'. clear HB E1 E1'.
  unfold file_data, file_data_on. rewrite combine_map. fold (fbody e f). fold (fbody_on e f).
  assert (Hs : Forall (fun z => data_size z < 2 ^ 63) (f_zones f)).
  { apply Forall_forall. intros z Hin. pose proof (data_size_le f z Hg Hin). lia. }
  set (w := "" ++ _). set (t := before (fun s => s) e f).
  pose proof (zones_run e f (f_zones f) [] d true 0 t w Hg Hs) as HZ. cbn [length app Nat.add] in HZ.
  unfold bind at 1. destruct (for_each 0 _ _ _) as [[s g] u|[s g] x|].
  - destruct HZ as (HZ & d' & gs & -> & -> & Hgs). rewrite (bind_ret _ _ _ _ _ HZ). set (w1 := w ++ _). set (t1 := (t ++ _)%list).
    pose proof (tail_run e f d' true 0 gs t1 w1) as HT. destruct (tail e f _) as [[s g] u'|? ?|]; [|destruct HT|exact HT].
    destruct HT as (HT & HE & HM). rewrite HT. split; [|split].
    + unfold w1, w. rewrite !printed_app, !sh_app, !append_assoc. reflexivity.
    + rewrite HE. unfold t1, t. rewrite <- app_assoc. reflexivity.
    + rewrite HM. exact Hgs.
  - destruct HZ as (j & z & k & Hj & HZ & Hk & Hb & gs & -> & Hgs). right. split; [exact Hr|]. split; [reflexivity|]. exists j, z, k.
    split; [exact Hj|]. split; [exists z; auto|]. rewrite (bind_thr _ _ _ _ _ HZ). split; [|split; [reflexivity|exact Hgs]].
    unfold w. rewrite !printed_app, !sh_app, !append_assoc. reflexivity.
  - rewrite (bind_undef _ _ _ HZ). reflexivity.
Qed.
End Echo.
