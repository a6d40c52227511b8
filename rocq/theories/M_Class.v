(** The member functions of the three PointData classes by name.

    The three classes PointData (PointData_1D.hpp:229-581, PointData_2D.hpp:328-731,
    PointData_3D.hpp:438-888) are put under one set of names here; argument lists
    become Coq lists with one entry per dimension.  Nothing is computed in this
    file except the choice of the class.  A call with the wrong number of
    arguments does not compile in C++; here it is [undef]. *)

From Coq Require Import ZArith List Bool String.
From Verif Require Import Base M_Flags M_Loop M_RS1 M_RS2 M_RS3 M_Heap M_PD1 M_PD2 M_PD3 Spec.
Import ListNotations.
Open Scope Z_scope.

(** The template arguments: [_N], [_LOC0], [_LOC1], [_LOC2]
    (PointData_1D.hpp:229, PointData_2D.hpp:328, PointData_3D.hpp:438). *)
Inductive kind :=
| K1 (N : Z) (l0 : loc)
| K2 (N : Z) (l0 l1 : loc)
| K3 (N : Z) (l0 l1 l2 : loc).

Definition k_N (k : kind) : Z := match k with K1 N _ => N | K2 N _ _ => N | K3 N _ _ _ => N end.
Definition k_locs (k : kind) : list loc :=
  match k with K1 _ a => [a] | K2 _ a b => [a; b] | K3 _ a b c => [a; b; c] end.

(** An object of one of the three classes. *)
Inductive obj := O1 (o : pd1) | O2 (o : pd2) | O3 (o : pd3).

(** A [RangeT] argument: (begin, size) per dimension
    (PointData_1D.hpp:37-48, PointData_2D.hpp:37-51, PointData_3D.hpp:37-53). *)
Definition range := list (Z * Z).

Section Class.
Context {V : Type}.
Notation mem := (mem V).

Definition in1 {A} (f : M (mem * pd1) A) : M (mem * obj) A :=
  fun st => let '(m, o) := st in
    match o with
    | O1 o => match f (m, o) with
              | Ret (m', o') a => Ret (m', O1 o') a
              | Thr (m', o') e => Thr (m', O1 o') e
              | Undef => Undef
              end
    | _ => Undef
    end.
Definition in2 {A} (f : M (mem * pd2) A) : M (mem * obj) A :=
  fun st => let '(m, o) := st in
    match o with
    | O2 o => match f (m, o) with
              | Ret (m', o') a => Ret (m', O2 o') a
              | Thr (m', o') e => Thr (m', O2 o') e
              | Undef => Undef
              end
    | _ => Undef
    end.
Definition in3 {A} (f : M (mem * pd3) A) : M (mem * obj) A :=
  fun st => let '(m, o) := st in
    match o with
    | O3 o => match f (m, o) with
              | Ret (m', o') a => Ret (m', O3 o') a
              | Thr (m', o') e => Thr (m', O3 o') e
              | Undef => Undef
              end
    | _ => Undef
    end.

(** The members before the constructor body runs. *)
Definition m_blank (k : kind) : obj :=
  match k with
  | K1 N _ => O1 (blank1 N) | K2 N _ _ => O2 (blank2 N) | K3 N _ _ _ => O3 (blank3 N)
  end.

(** Default constructors (PointData_1D.hpp:342, PointData_2D.hpp:461, PointData_3D.hpp:586). *)
Definition m_ctor (k : kind) : M (mem * obj) unit :=
  match k with
  | K1 N _ => in1 (ctor1 N) | K2 N _ _ => in2 (ctor2 N) | K3 N _ _ _ => in3 (ctor3 N)
  end.

(** Constructors with a shape (PointData_1D.hpp:355, PointData_2D.hpp:474, PointData_3D.hpp:599). *)
Definition m_ctor_sized (chk : bool) (k : kind) (gs : list dim_shape) : M (mem * obj) unit :=
  match k, gs with
  | K1 N a, [(n, i, p)] => in1 (ctor1_sized chk N a n i p)
  | K2 N a b, [(n, i, p); (n1, i1, p1)] => in2 (ctor2_sized chk N a b n i p n1 i1 p1)
  | K3 N a b c, [(n, i, p); (n1, i1, p1); (n2, i2, p2)] =>
      in3 (ctor3_sized chk N a b c n i p n1 i1 p1 n2 i2 p2)
  | _, _ => undef
  end.

(** [alloc] (PointData_1D.hpp:378, PointData_2D.hpp:498, PointData_3D.hpp:624). *)
Definition m_alloc (chk : bool) (k : kind) (gs : list dim_shape) : M (mem * obj) unit :=
  match k, gs with
  | K1 N a, [(n, i, p)] => in1 (alloc1 chk N a n i p)
  | K2 N a b, [(n, i, p); (n1, i1, p1)] => in2 (alloc2 chk N a b n i p n1 i1 p1)
  | K3 N a b c, [(n, i, p); (n1, i1, p1); (n2, i2, p2)] =>
      in3 (alloc3 chk N a b c n i p n1 i1 p1 n2 i2 p2)
  | _, _ => undef
  end.

(** [realloc] (PointData_1D.hpp:414, PointData_2D.hpp:543, PointData_3D.hpp:678). *)
Definition m_realloc (chk : bool) (k : kind) (gs : list dim_shape) : M (mem * obj) unit :=
  match k, gs with
  | K1 N a, [(n, i, p)] => in1 (realloc1 chk N a n i p)
  | K2 N a b, [(n, i, p); (n1, i1, p1)] => in2 (realloc2 chk N a b n i p n1 i1 p1)
  | K3 N a b c, [(n, i, p); (n1, i1, p1); (n2, i2, p2)] =>
      in3 (realloc3 chk N a b c n i p n1 i1 p1 n2 i2 p2)
  | _, _ => undef
  end.

(** [clear] (PointData_1D.hpp:422, PointData_2D.hpp:552, PointData_3D.hpp:688). *)
Definition m_clear (k : kind) : M (mem * obj) unit :=
  match k with
  | K1 N _ => in1 (clear1 N) | K2 _ _ _ => in2 clear2 | K3 _ _ _ _ => in3 clear3
  end.

(** Destructors (PointData_1D.hpp:369, PointData_2D.hpp:489, PointData_3D.hpp:615). *)
Definition m_dtor (k : kind) : M (mem * obj) unit :=
  match k with
  | K1 N _ => in1 (dtor1 N) | K2 _ _ _ => in2 dtor2 | K3 _ _ _ _ => in3 dtor3
  end.

(** [size()] and its [n(d)], [in(d)], [p(d)] (PointData_1D.hpp:255, PointData_2D.hpp:359,
    PointData_3D.hpp:474). *)
Definition m_size (o : obj) : list dim_shape :=
  match o with
  | O1 o => shape1 (pd1_size o) | O2 o => shape2 (pd2_size o) | O3 o => shape3 (pd3_size o)
  end.

(** The member [data] (PointData_1D.hpp:238, PointData_2D.hpp:338, PointData_3D.hpp:449). *)
Definition o_data (o : obj) : ptr :=
  match o with O1 o => pd1_data o | O2 o => pd2_data o | O3 o => pd3_data o end.

(** The subscript expression behind element access: [pt0[n][i]], [pt0[n][i][j]],
    [pt0[n][i][j][k]]. *)
Definition m_lval (m : mem) (o : obj) (n : Z) (q : list Z) : res ptr :=
  match o, q with
  | O1 o, [i] => lval1 m o n i
  | O2 o, [i; j] => lval2 m o n i j
  | O3 o, [i; j; k] => lval3 m o n i j k
  | _, _ => UB
  end.

(** [operator()] (PointData_1D.hpp:257, PointData_2D.hpp:361, PointData_3D.hpp:476). *)
Definition m_at (chk : bool) (k : kind) (m : mem) (o : obj) (n : Z) (q : list Z) (fl : list flag) : res ptr :=
  match k, o, q, fl with
  | K1 N a, O1 o, [i], [f] => at1 chk N a m o n i f
  | K2 N a b, O2 o, [i; j], [f; g] => at2 chk N a b m o n i j f g
  | K3 N a b c, O3 o, [i; j; l], [f; g; h] => at3 chk N a b c m o n i j l f g h
  | _, _, _, _ => UB
  end.

(** [data_pt] (PointData_1D.hpp:276, PointData_2D.hpp:382, PointData_3D.hpp:499). *)
Definition m_data_pt (chk : bool) (k : kind) (m : mem) (o : obj) (n : Z) : res ptr :=
  match k, o with
  | K1 N _, O1 o => data_pt1 chk N m o n
  | K2 N _ _, O2 o => data_pt2 chk N m o n
  | K3 N _ _ _, O3 o => data_pt3 chk N m o n
  | _, _ => UB
  end.

(** [disp_data] (PointData_1D.hpp:454, PointData_2D.hpp:582, PointData_3D.hpp:720). *)
Definition m_disp (chk : bool) (k : kind) (m : mem) (o : obj) : M (list (tok V)) unit :=
  match k, o with
  | K1 N a, O1 o => disp_data1 chk N a m o
  | K2 N a b, O2 o => disp_data2 chk N a b m o
  | K3 N a b c, O3 o => disp_data3 chk N a b c m o
  | _, _ => undef
  end.

(** The four [copy_from] overloads (PointData_1D.hpp:282-296 and :471,
    PointData_2D.hpp:388-407 and :606, PointData_3D.hpp:505-524 and :750). *)
Definition m_copy (chk : bool) (k : kind) (d s : obj) (same : bool) (R r : range) (A a : list Z) : M mem unit :=
  match k, d, s, R, r, A, a with
  | K1 N l, O1 d, O1 s, [(b, z)], [(b', z')], [I0], [i] =>
      copy_from1 chk N l d s same (mkRange1 b z) (mkRange1 b' z') I0 i
  | K2 N l l1, O2 d, O2 s, [(b, z); (b1, z1)], [(b', z'); (b1', z1')], [I0; J], [i; j] =>
      copy_from2 chk N l l1 d s same (mkRange2 (b, b1) (z, z1)) (mkRange2 (b', b1') (z', z1')) I0 J i j
  | K3 N l l1 l2, O3 d, O3 s, [(b, z); (b1, z1); (b2, z2)], [(b', z'); (b1', z1'); (b2', z2')],
    [I0; J; K], [i; j; k] =>
      copy_from3 chk N l l1 l2 d s same (mkRange3 (mkI3 b b1 b2) (mkI3 z z1 z2))
                 (mkRange3 (mkI3 b' b1' b2') (mkI3 z' z1' z2')) I0 J K i j k
  | _, _, _, _, _, _, _ => undef
  end.

Definition m_copy_tag (chk : bool) (k : kind) (d s : obj) (same : bool) (R r : list ra) (A a : list Z) : M mem unit :=
  match k, d, s, R, r, A, a with
  | K1 N l, O1 d, O1 s, [R0], [r0], [I0], [i] => copy_from1_tag chk N l d s same R0 r0 I0 i
  | K2 N l l1, O2 d, O2 s, [R0; R1], [r0; r1], [I0; J], [i; j] =>
      copy_from2_tag chk N l l1 d s same R0 R1 r0 r1 I0 J i j
  | K3 N l l1 l2, O3 d, O3 s, [R0; R1; R2], [r0; r1; r2], [I0; J; K], [i; j; k] =>
      copy_from3_tag chk N l l1 l2 d s same R0 R1 R2 r0 r1 r2 I0 J K i j k
  | _, _, _, _, _, _, _ => undef
  end.

Definition m_copy_fl (chk : bool) (k : kind) (d s : obj) (same : bool) (R r : range) (fl : list bflag) : M mem unit :=
  match k, d, s, R, r, fl with
  | K1 N l, O1 d, O1 s, [(b, z)], [(b', z')], [f] =>
      copy_from1_fl chk N l d s same (mkRange1 b z) (mkRange1 b' z') f
  | K2 N l l1, O2 d, O2 s, [(b, z); (b1, z1)], [(b', z'); (b1', z1')], [f; f1] =>
      copy_from2_fl chk N l l1 d s same (mkRange2 (b, b1) (z, z1)) (mkRange2 (b', b1') (z', z1')) f f1
  | K3 N l l1 l2, O3 d, O3 s, [(b, z); (b1, z1); (b2, z2)], [(b', z'); (b1', z1'); (b2', z2')], [f; f1; f2] =>
      copy_from3_fl chk N l l1 l2 d s same (mkRange3 (mkI3 b b1 b2) (mkI3 z z1 z2))
                    (mkRange3 (mkI3 b' b1' b2') (mkI3 z' z1' z2')) f f1 f2
  | _, _, _, _, _, _ => undef
  end.

Definition m_copy_tag_fl (chk : bool) (k : kind) (d s : obj) (same : bool) (R r : list ra) (fl : list bflag) : M mem unit :=
  match k, d, s, R, r, fl with
  | K1 N l, O1 d, O1 s, [R0], [r0], [f] => copy_from1_tag_fl chk N l d s same R0 r0 f
  | K2 N l l1, O2 d, O2 s, [R0; R1], [r0; r1], [f; f1] =>
      copy_from2_tag_fl chk N l l1 d s same R0 R1 r0 r1 f f1
  | K3 N l l1 l2, O3 d, O3 s, [R0; R1; R2], [r0; r1; r2], [f; f1; f2] =>
      copy_from3_tag_fl chk N l l1 l2 d s same R0 R1 R2 r0 r1 r2 f f1 f2
  | _, _, _, _, _, _ => undef
  end.

End Class.
