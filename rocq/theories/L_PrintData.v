(** The characters of disp_data() tell the text of every element. *)

From Coq Require Import ZArith Ascii String List Bool Lia.
From Verif Require Import Base M_Flags M_RS1 M_RS2 M_RS3 M_Bytes M_Heap M_PD0 M_PD1 M_PD2 M_PD3 M_World
  Spec Spec_Loop Spec_Array Spec_Log Spec_Hist Spec_Reach Spec_Zero M_Scan
  L_Base L_Loop L_Text L_World L_Access L_Rep L_Kind L_Disp L_Zero L_Texts M_Print Spec_Print L_Print.
Import ListNotations.
Open Scope string_scope.
Open Scope Z_scope.

(** Every element replaced by its text. *)
Definition retok {V W} (f : V -> W) (t : tok V) : tok W :=
  match t with TStr s => TStr s | TInt z => TInt z | TVal v => TVal (f v) | TEndl => TEndl end.
Lemma render_retok {V} (f : V -> string) l : render_as f l = render_as (fun s => s) (map (retok f) l).
Proof. induction l as [|t l IH]; [reflexivity|]. unfold render_as in *. cbn [fold_right map]. rewrite IH. destruct t; reflexivity. Qed.

Lemma map_flat {A B C} (g : B -> C) (f : A -> list B) l : map g (flat_map f l) = flat_map (fun x => map g (f x)) l.
Proof. induction l as [|x l IH]; cbn; [reflexivity|]. now rewrite map_app, IH. Qed.
Lemma display_retok {V W} (f : V -> W) (val : Z -> list Z -> V) k B :
  map (retok f) (display val k B) = display (fun n q => f (val n q)) k B.
Proof.
  destruct k as [N a|N a b|N a b c], B as [|g [|h [|i [|? ?]]]]; try reflexivity; cbn [display].
  - rewrite map_flat. apply flat_map_ext. intros x. rewrite map_app, map_flat. reflexivity.
  - rewrite map_flat. apply flat_map_ext. intros n. rewrite !map_app, map_flat. do 2 f_equal. apply flat_map_ext. intros x.
    rewrite map_app, map_flat. reflexivity.
  - rewrite map_flat. apply flat_map_ext. intros n. rewrite !map_app, map_flat. do 2 f_equal. apply flat_map_ext. intros x.
    rewrite map_app, map_flat. f_equal. apply flat_map_ext. intros y. rewrite map_app, map_flat. reflexivity.
Qed.

Lemma render_as_alike l l' : alike no_comma l l' -> render_as (fun s => s) l = render_as (fun s => s) l' -> l = l'.
Proof.
  unfold render_as. induction 1 as [|v v' l l' Hv Hv' H IH|t l l' H IH]; intros E; [reflexivity| |].
  - cbn [fold_right tok_as] in E. apply comma_cut in E; [|assumption..]. destruct E as [-> E]. injection E as E. now rewrite (IH E).
  - cbn [fold_right] in E. apply append_cancel in E. now rewrite (IH E).
Qed.

Section Data.
Context {V W : Type}.

Lemma print_data F F' (h : list (op V)) (h' : list (op W)) (w : world V) (w' : world W) (aw : aworld V) (aw' : aworld W) a a' k o o' val val'
    (f : V -> string) (f' : W -> string) chk chk' out out' :
  after F h w aw -> healthy aw a -> find w a = Some (k, o) -> o_data o <> Null ->
  after F' h' w' aw' -> healthy aw' a' -> find w' a' = Some (k, o') -> o_data o' <> Null ->
  m_size o = m_size o' ->
  (forall n q, 0 <= n < k_N k -> in_box (slot_box (m_size o) (k_locs k)) q ->
     reads w k o n q (Some (val n q)) /\ no_comma (f (val n q)) /\ reads w' k o' n q (Some (val' n q)) /\ no_comma (f' (val' n q))) ->
  m_disp chk k (heap w) o [] = Ret out tt -> m_disp chk' k (heap w') o' [] = Ret out' tt ->
  render_as f out = render_as f' out' ->
  forall n q, 0 <= n < k_N k -> in_box (slot_box (m_size o) (k_locs k)) q -> f (val n q) = f' (val' n q).
Proof.
  intros HA Hh Hf Hd HA' Hh' Hf' Hd' HS Hv E E' ER.
  rewrite (disp_text F h w aw a k o val chk [] HA Hh Hf Hd) in E by (intros; now apply Hv).
  rewrite (disp_text F' h' w' aw' a' k o' val' chk' [] HA' Hh' Hf' Hd') in E'
    by (intros n q H1 H2; rewrite <- HS in H2; now apply Hv).
  cbn [app] in E, E'. injection E as <-. injection E' as <-. rewrite <- HS in ER.
  rewrite (render_retok f), (render_retok f'), !display_retok in ER.
  apply render_as_alike in ER; [|apply display_alike; intros n q H1 H2; split; now apply Hv].
  apply (display_inj (fun n q => f (val n q)) (fun n q => f' (val' n q)) k (slot_box (m_size o) (k_locs k))); [|exact ER].
  destruct (after_find _ _ _ _ _ _ _ HA Hf) as (x & own & lk & Ha & HN & Hr & _).
  apply slot_box_len, (rep_class _ _ _ _ _ Hr).
Qed.

Lemma print_data0 N (h : list (op0 V)) (h' : list (op0 W)) o o1 val (o' : pd0 (V := V)) (o1' : pd0 (V := W)) val' rs rs'
    (f : V -> string) (f' : W -> string) out out' :
  0 <= N <= INT_MAX ->
  ctor0 N = Ok o -> Forall (fun c => 0 <= arg0 c) h -> exec0 N true o h = Some (o', rs) ->
  ctor0 N = Ok o1 -> Forall (fun c => 0 <= arg0 c) h' -> exec0 N true o1 h' = Some (o1', rs') ->
  (forall n, 0 <= n < N -> last_write0 h n = Some (val n) /\ no_comma (f (val n)) /\ last_write0 h' n = Some (val' n) /\ no_comma (f' (val' n))) ->
  disp_data0 N o' [] = Ret out tt -> disp_data0 N o1' [] = Ret out' tt ->
  render_as f out = render_as f' out' ->
  forall n, 0 <= n < N -> f (val n) = f' (val' n).
Proof.
  intros HN Ho Hh He Ho1 Hh1 He1 Hv E E' ER.
  rewrite (disp0 N o h val o' rs [] HN Ho Hh He) in E by (intros; now apply Hv).
  rewrite (disp0 N o1 h' val' o1' rs' [] HN Ho1 Hh1 He1) in E' by (intros; now apply Hv).
  cbn [app] in E, E'. injection E as <-. injection E' as <-. rewrite (render_retok f), (render_retok f'), !map_flat in ER. cbn [map retok] in ER.
  apply render_as_alike in ER.
  - intros n Hn. apply in_zrange in Hn. apply flat_map_parts with (x := n) in ER; [|reflexivity|exact Hn]. injection ER as ER. exact ER.
  - apply alike_flat. intros n Hn. apply in_zrange in Hn. constructor; [apply Hv, Hn..|constructor].
Qed.
End Data.
