(** Client programs: any number of arrays of any kind in one memory, and calls of
    the member functions of M_Class.v and M_Read.v. *)

From Coq Require Import ZArith List Bool String.
From Verif Require Import Base M_Flags M_Loop M_RS1 M_RS2 M_RS3 M_Heap M_PD1 M_PD2 M_PD3 Spec
  M_Bytes M_TecZone M_TecFile M_Read.
From Verif Require Export M_Class.
Import ListNotations.
Open Scope Z_scope.

Section World.
Context {V : Type}.
Notation mem := (mem V).

(** ** Programs *)

(** One call of a client program.  Arrays are named by their creation number. *)
Inductive op :=
| New (k : kind)
| NewSized (k : kind) (gs : list dim_shape)
| Alloc (a : nat) (gs : list dim_shape)
| Realloc (a : nat) (gs : list dim_shape)
| Clear (a : nat)
| Destroy (a : nat)
| Size (a : nat)
| Read (a : nat) (n : Z) (q : list Z) (fl : list flag)            (* x = a(n, q..., fl...) *)
| Write (a : nat) (n : Z) (q : list Z) (fl : list flag) (v : V)   (* a(n, q..., fl...) = v *)
| DataRead (a : nat) (n off : Z)                                  (* x = a.data_pt(n)[off] *)
| DataWrite (a : nat) (n off : Z) (v : V)                         (* a.data_pt(n)[off] = v *)
| Copy (d s : nat) (R r : range) (A a : list Z)
| CopyTag (d s : nat) (R r : list ra) (A a : list Z)
| CopyFl (d s : nat) (R r : range) (fl : list bflag)
| CopyTagFl (d s : nat) (R r : list ra) (fl : list bflag)
(** a.read_plt(root, log, zone, name, nn): [fs] are the files at that time, [of_float] and [of_double]
    the conversions to the element type (M_Read.v). *)
| ReadPlt (a : nat) (of_float of_double : bytes -> option V) (fs : files) (root : string) (log : file_log)
    (zone : Z) (name : string) (nn : Z).

(** What the caller observes.  [RVal None]: an element that was never written. *)
Inductive result :=
| RDone
| RExn (e : exn)
| RShape (gs : list dim_shape)
| RVal (v : option V).

(** The heap and the arrays in order of creation; [None] once destroyed, or if
    the constructor threw. *)
Record world := mkWorld { heap : mem; objs : list (option (kind * obj)) }.

Definition find (w : world) (a : nat) : option (kind * obj) :=
  match nth_error (objs w) a with Some (Some x) => Some x | _ => None end.

Definition set_obj (l : list (option (kind * obj))) (a : nat) (x : option (kind * obj)) := upd l a x.

(** A constructor call: if it throws the object does not exist. *)
Definition construct (w : world) (k : kind) (c : M (mem * obj) unit) : option (world * result) :=
  match c (heap w, m_blank k) with
  | Ret (m, o) _ => Some (mkWorld m (objs w ++ [Some (k, o)]), RDone)
  | Thr (m, _) e => Some (mkWorld m (objs w ++ [None]), RExn e)
  | Undef => None
  end.

(** A call of a member function that changes the object. *)
Definition on_obj (w : world) (a : nat) (f : kind -> M (mem * obj) unit) : option (world * result) :=
  match find w a with
  | Some (k, o) =>
      match f k (heap w, o) with
      | Ret (m, o') _ => Some (mkWorld m (set_obj (objs w) a (Some (k, o'))), RDone)
      | Thr (m, o') e => Some (mkWorld m (set_obj (objs w) a (Some (k, o'))), RExn e)
      | Undef => None
      end
  | None => None
  end.

(** A computation on memory alone, and its result. *)
Definition on_mem {A} (w : world) (f : M mem A) (g : A -> result) : option (world * result) :=
  match f (heap w) with
  | Ret m x => Some (mkWorld m (objs w), g x)
  | Thr m e => Some (mkWorld m (objs w), RExn e)
  | Undef => None
  end.

(** Lvalue to rvalue conversion of an element. *)
Definition fetch (m : mem) (p : ptr) : res (option V) :=
  let* c := load m p in
  match c with CVal v => Ok (Some v) | CUndef => Ok None | CPtr _ => UB end.

(** [p[off]] as an element. *)
Definition elem (m : mem) (p : res ptr) (off : Z) : res ptr := let* p := p in pidx m p off.

Definition kind_eqb (k k' : kind) : bool :=
  let leq a b := match a, b with center, center | half, half => true | _, _ => false end in
  match k, k' with
  | K1 N a, K1 N' a' => (N =? N') && leq a a'
  | K2 N a b, K2 N' a' b' => (N =? N') && (leq a a' && leq b b')
  | K3 N a b c, K3 N' a' b' c' => (N =? N') && (leq a a' && (leq b b' && leq c c'))
  | _, _ => false
  end.

(** A copy between two arrays of the same class. *)
Definition on_two (w : world) (d s : nat) (f : kind -> obj -> obj -> bool -> M mem unit) : option (world * result) :=
  match find w d, find w s with
  | Some (k, od), Some (k', os) =>
      if kind_eqb k k' then on_mem w (f k od os (Nat.eqb d s)) (fun _ => RDone) else None
  | _, _ => None
  end.

(** One call; [None] is undefined behaviour (including the use of an array that
    does not exist). *)
Definition step (chk : bool) (w : world) (c : op) : option (world * result) :=
  match c with
  | New k => construct w k (m_ctor k)
  | NewSized k gs => construct w k (m_ctor_sized chk k gs)
  | Alloc a gs => on_obj w a (fun k => m_alloc chk k gs)
  | Realloc a gs => on_obj w a (fun k => m_realloc chk k gs)
  | Clear a => on_obj w a m_clear
  | Destroy a =>
      match on_obj w a m_dtor with
      | Some (w', RDone) => Some (mkWorld (heap w') (set_obj (objs w') a None), RDone)
      | _ => None    (* an exception that leaves a destructor terminates the program *)
      end
  | Size a =>
      match find w a with Some (_, o) => Some (w, RShape (m_size o)) | None => None end
  | Read a n q fl =>
      match find w a with
      | Some (k, o) => on_mem w (gets (fun m => let* p := m_at chk k m o n q fl in fetch m p)) RVal
      | None => None
      end
  | Write a n q fl v =>
      match find w a with
      | Some (k, o) => on_mem w (do* p := gets (fun m => m_at chk k m o n q fl) in store p (CVal v)) (fun _ => RDone)
      | None => None
      end
  | DataRead a n off =>
      match find w a with
      | Some (k, o) => on_mem w (gets (fun m => let* p := elem m (m_data_pt chk k m o n) off in fetch m p)) RVal
      | None => None
      end
  | DataWrite a n off v =>
      match find w a with
      | Some (k, o) =>
          on_mem w (do* p := gets (fun m => elem m (m_data_pt chk k m o n) off) in store p (CVal v)) (fun _ => RDone)
      | None => None
      end
  | Copy d s R r A a => on_two w d s (fun k od os same => m_copy chk k od os same R r A a)
  | CopyTag d s R r A a => on_two w d s (fun k od os same => m_copy_tag chk k od os same R r A a)
  | CopyFl d s R r fl => on_two w d s (fun k od os same => m_copy_fl chk k od os same R r fl)
  | CopyTagFl d s R r fl => on_two w d s (fun k od os same => m_copy_tag_fl chk k od os same R r fl)
  | ReadPlt a of_float of_double fs root log zone name nn =>
      (* the buffers still live when the call is over are not counted here, see C37 *)
      match find w a with
      | Some (k, o) =>
          on_mem w (fun m => match m_read_plt chk of_float of_double k fs root log zone name nn o (m, 0) with
                             | Ret (m', _) u => Ret m' u
                             | Thr (m', _) e => Thr m' e
                             | Undef => Undef
                             end) (fun _ => RDone)
      | None => None
      end
  end.

(** A program, call after call; the results in order. *)
Fixpoint exec (chk : bool) (w : world) (h : list op) : option (world * list result) :=
  match h with
  | [] => Some (w, [])
  | c :: h' =>
      match step chk w c with
      | Some (w', r) =>
          match exec chk w' h' with
          | Some (w'', rs) => Some (w'', r :: rs)
          | None => None
          end
      | None => None
      end
  end.

(** No arrays, no blocks; [f] says which requests for memory will fail. *)
Definition start (f : nat -> bool) : world := mkWorld (mkMem [] f 0) [].

End World.
Arguments op : clear implicits.
Arguments result : clear implicits.
Arguments world : clear implicits.
