(** Whole programs: tensor variables (TensorVars.v), NPY files by path (Files.v), NPZ
    archives by path (ZipFiles.v) and their readers, over one disk and one global state
    of the library (src/npy.cpp 10-11, src/dtype.cpp 29-45). *)
From Coq Require Import String ZArith List Bool Lia.
From Verif Require Import Base Stream Dtype Values Header Tensor Npy Npz TensorVars Views Files ZipFiles.
Import ListNotations.
Open Scope Z_scope.

(** The state of a program that uses libnpy. Not in /repo: the caller's objects. *)
Record machine := mk_machine {
  m_vars : objects;                       (* npy::tensor<T> variables *)
  m_disk : disk;
  m_writers : nat -> option file_writer;  (* npzfilewriter objects that are alive *)
  m_readers : nat -> option reader;       (* npzfilereader objects that are alive *)
  m_globals : globals
}.
(** Helpers: one component changes. *)
Definition on_vars (s : machine) (x : objects) : machine :=
  mk_machine x (m_disk s) (m_writers s) (m_readers s) (m_globals s).
(** Helper *)
Definition on_globals (s : machine) (g : globals) : machine :=
  mk_machine (m_vars s) (m_disk s) (m_writers s) (m_readers s) g.
(** Helper *)
Definition on_disk_only (s : machine) (k : disk) : machine :=
  mk_machine (m_vars s) k (m_writers s) (m_readers s) (m_globals s).
(** Helper *)
Definition on_writer (s : machine) (h : nat) (w : option file_writer) (k : disk) : machine :=
  mk_machine (m_vars s) k (fun i => if (i =? h)%nat then w else m_writers s i) (m_readers s) (m_globals s).
(** Helper *)
Definition on_reader (s : machine) (h : nat) (r : option reader) (g : globals) : machine :=
  mk_machine (m_vars s) (m_disk s) (m_writers s) (fun i => if (i =? h)%nat then r else m_readers s i) g.

(** What a program can do. *)
Inductive step :=
| SVar (a : action)                                (* TensorVars.v: construct, copy, move, set, copy_from *)
| SGet (i : nat) (index : list Z)                  (* include/npy/npy.h 822-824, 772-774 *)
| SList (i : nat)                                  (* for (auto &x : t), 799-810 *)
| SSave (i : nat) (e : endian) (p : bytes)         (* 271-279: npy::save(path, t, e) *)
| SLoad (i : nat) (p : bytes)                      (* 346-353: t = npy::load<T>(path) *)
| SPeek (p : bytes)                                (* src/npy.cpp 127-134: npy::peek(path) *)
| SNew (h : nat) (d : device) (p : bytes) (method : Z) (e : endian)  (* src/npz.cpp 467-482 *)
| SWrite (h : nat) (name : bytes) (i : nat)        (* include/npy/npy.h 507-523 *)
| SClose (h : nat)                                 (* src/npz.cpp 502-508 *)
| SEnd (h : nat)                                   (* src/npz.cpp 484-488: the destructor *)
| SOpen (r : nat) (p : bytes)                      (* src/npz.cpp 542-563 *)
| SRead (i : nat) (r : nat) (name : bytes)         (* include/npy/npy.h 634-637: t = r.read<T>(name) *)
| SLook (r : nat) (name : bytes)                   (* src/npz.cpp 580-583: peek *)
| SHas (r : nat) (name : bytes)                    (* src/npz.cpp 575-577: contains *)
| SKeys (r : nat).                                 (* src/npz.cpp 569: keys *)

(** What the program sees of a step. *)
Inductive seen :=
| Done
| Saw (x : elem)
| SawAll (l : list elem)
| SawHeader (d : dtype) (fortran : bool) (shape : list Z)
| SawBool (b : bool)
| SawKeys (l : list bytes)
| Caught (x : exn).

(** The element type of each variable: the template argument. *)
Definition typing := nat -> dtype.
(** The variable an action constructs or assigns. *)
Definition target (a : action) : nat :=
  match a with
  | AMake i _ _ | ACopyMake i _ | AMoveMake i _ | ACopy i _ | AMove i _ | ASet i _ _ | AFill i _ => i
  end.
(** What is read of a header_info: dtype, fortran_order, shape (include/npy/npy.h 145-171). *)
Definition header_seen (h : header_info) : outcome seen :=
  let* d := field (h_dtype h) in
  let* f := field (h_fortran h) in
  Ok (SawHeader d f (h_shape h)).

(** One step: what it gives and the state afterwards. A loaded tensor is assigned with
    operator=(tensor&&) (include/npy/npy.h 915-922), so the variable is the loaded tensor.
    Using a writer or reader object that does not exist is not a C++ program: [Done]. *)
Definition exec (v : env) (c : codec) (ty : typing) (x : step) (s : machine) : outcome seen * machine :=
  match x with
  | SVar a =>
      match act v (ty (target a)) a (m_vars s) with
      | Ok m => (Ok Done, on_vars s m)
      | Throw e => (Throw e, s)
      | AssertFail => (AssertFail, s)
      | Undef u => (Undef u, s)
      end
  | SGet i index => (let* y := t_get (m_vars s i) index in Ok (Saw y), s)
  | SList i => (let* l := visits (m_vars s i) in Ok (SawAll l), s)
  | SSave i e p =>
      let t := m_vars s i in
      let (o, k) := save_path v t e p (match save v t e with Ok b => len b | _ => 0 end) (m_disk s) in
      (let* _ := o in Ok Done, on_disk_only s k)
  | SLoad i p =>
      let (o, g) := load_path v (ty i) p (m_disk s) (m_globals s) in
      match o with
      | Ok t => (Ok Done, on_globals (on_vars s (put (m_vars s) i t)) g)
      | Throw e => (Throw e, on_globals s g)
      | AssertFail => (AssertFail, on_globals s g)
      | Undef u => (Undef u, on_globals s g)
      end
  | SPeek p =>
      let (o, g) := peek_path v p (m_disk s) (m_globals s) in
      (let* h := o in header_seen h, on_globals s g)
  | SNew h d p method e =>
      let k := match m_writers s h with Some w => fw_destroy w (m_disk s) | None => m_disk s end in
      let (w, k') := fw_new d p method e k in
      (Ok Done, on_writer s h (Some w) k')
  | SWrite h name i =>
      match m_writers s h with
      | Some w => let '(o, w', k) := fw_write v c w name (m_vars s i) (m_disk s) in
                  (let* _ := o in Ok Done, on_writer s h (Some w') k)
      | None => (Ok Done, s)
      end
  | SClose h =>
      match m_writers s h with
      | Some w => let (w', k) := fw_close w (m_disk s) in (Ok Done, on_writer s h (Some w') k)
      | None => (Ok Done, s)
      end
  | SEnd h =>
      match m_writers s h with
      | Some w => (Ok Done, on_writer s h None (fw_destroy w (m_disk s)))
      | None => (Ok Done, s)
      end
  | SOpen r p =>
      match fr_open p (m_disk s) with
      | Ok y => (Ok Done, on_reader s r (Some y) (m_globals s))
      | Throw e => (Throw e, on_reader s r None (m_globals s))
      | AssertFail => (AssertFail, s)
      | Undef u => (Undef u, s)
      end
  | SRead i r name =>
      match m_readers s r with
      | Some y =>
          let '(o, y', g) := r_read v c (ty i) y name (m_globals s) in
          let s' := on_reader s r (Some y') g in
          match o with
          | Ok t => (Ok Done, on_vars s' (put (m_vars s) i t))
          | Throw e => (Throw e, s')
          | AssertFail => (AssertFail, s')
          | Undef u => (Undef u, s')
          end
      | None => (Ok Done, s)
      end
  | SLook r name =>
      match m_readers s r with
      | Some y => let '(o, y', g) := r_peek v c y name (m_globals s) in
                  (let* h := o in header_seen h, on_reader s r (Some y') g)
      | None => (Ok Done, s)
      end
  | SHas r name =>
      match m_readers s r with
      | Some y => (Ok (SawBool (r_contains y name)), s)
      | None => (Ok Done, s)
      end
  | SKeys r =>
      match m_readers s r with
      | Some y => (Ok (SawKeys (r_keys y)), s)
      | None => (Ok Done, s)
      end
  end.
(** A whole program. Exceptions are caught, noted, and the program goes on. *)
Fixpoint execute (v : env) (c : codec) (ty : typing) (l : list step) (s : machine) : outcome (list seen * machine) :=
  match l with
  | [] => Ok ([], s)
  | x :: l' =>
      let (o, s1) := exec v c ty x s in
      match o with
      | Ok y => let* r := execute v c ty l' s1 in Ok (y :: fst r, snd r)
      | Throw e => let* r := execute v c ty l' s1 in Ok (Caught e :: fst r, snd r)
      | AssertFail => AssertFail
      | Undef u => Undef u
      end
  end.

(** The start of a program: no object has been constructed ([ty i] is the type of variable
    [i]); BUFFER is zeroed static storage (src/npy.cpp 10-11), the dtype map is as
    initialised (src/dtype.cpp 29-45). *)
Definition fresh_machine (ty : typing) (k : disk) : machine :=
  mk_machine (fun i => mk_tensor [] [] false (ty i) []) k (fun _ => None) (fun _ => None) (zrepeat 0 65536, DTYPE_MAP).
