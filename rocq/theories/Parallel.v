(** Several threads, each running a program (Program.v) on objects of its own,
    over one disk and the library's one BUFFER and one DTYPE_MAP (src/npy.cpp 10-11,
    src/dtype.cpp 20). Calls that parse a header go through the parser step by step as in
    Race.v and Threads.v, interleaved with the other threads; every other call touches only
    the thread's own objects and files and is one step. *)
From Coq Require Import String ZArith List Bool Lia.
From Verif Require Import Base Stream Dtype Values Header Tensor Npy Npz TensorVars Files ZipFiles Race Threads Program.
Import ListNotations.
Open Scope Z_scope.

(** The calls that parse a header. *)
Definition reads_header (x : step) : bool :=
  match x with SLoad _ _ | SPeek _ | SRead _ _ _ | SLook _ _ => true | _ => false end.
(** include/npy/npy.h 346-353, 567-570, 634-637, src/npy.cpp 127-134, src/npz.cpp 537-540, 580-583:
    what such a call does before it parses: open the file, or fetch the member's bytes. It
    gives the stream to parse (and what is wanted of it) and the readers afterwards; None if
    the call ends before there is anything to parse. *)
Definition prepares (v : env) (c : codec) (ty : typing) (x : step) (s : machine) : option (job * (nat -> option reader)) :=
  match x with
  | SLoad i p => match file_at (m_disk s) p with Some b => Some (JLoad (ty i) (open_file b), m_readers s) | None => None end
  | SPeek p => match file_at (m_disk s) p with Some b => Some (JPeek (open_file b), m_readers s) | None => None end
  | SRead i r name =>
      match m_readers s r with
      | Some y => match r_read_file v c y name with
                  | (Ok b, y') => Some (JLoad (ty i) (open_str b), fun k => if (k =? r)%nat then Some y' else m_readers s k)
                  | _ => None
                  end
      | None => None
      end
  | SLook r name =>
      match m_readers s r with
      | Some y => match r_read_file v c y name with
                  | (Ok b, y') => Some (JPeek (open_str b), fun k => if (k =? r)%nat then Some y' else m_readers s k)
                  | _ => None
                  end
      | None => None
      end
  | _ => None
  end.
(** The same lines: what the call does with the answer: assign the variable, or hand the
    header to the program. *)
Definition concludes (x : step) (o : outcome answer) (m : objects) : outcome seen * objects :=
  match o with
  | Ok (Tensor_of t) => match x with SLoad i _ | SRead i _ _ => (Ok Program.Done, put m i t) | _ => (Ok Program.Done, m) end
  | Ok (Header_of h) => (header_seen h, m)
  | Throw e => (Throw e, m)
  | AssertFail => (AssertFail, m)
  | Undef u => (Undef u, m)
  end.

(** A thread: its objects, what it has seen, the call it is in, and the steps to come. *)
Record worker := mk_worker {
  k_vars : objects;
  k_writers : nat -> option file_writer;
  k_readers : nat -> option reader;
  k_seen : list seen;
  k_call : option (proc answer * step);
  k_todo : list step
}.
(** Helper: the thread's objects with the shared state *)
Definition machine_of (t : worker) (k : disk) (g : globals) : machine :=
  mk_machine (k_vars t) k (k_writers t) (k_readers t) g.
(** Helper: exceptions are caught and noted, as in [execute]. *)
Definition noted (o : outcome seen) : outcome seen :=
  match o with Throw e => Ok (Caught e) | x => x end.
(** One step of a thread: begin a call that parses, make any other call, one access of the
    parser to the globals, or the end of a call that parses. *)
Definition moves (v : env) (c : codec) (ty : typing) (t : worker) (k : disk) (g : globals) : outcome (worker * disk * globals) :=
  match k_call t with
  | None =>
      match k_todo t with
      | [] => Ok (t, k, g)
      | x :: l =>
          match prepares v c ty x (machine_of t k g) with
          | Some (j, rd) => Ok (mk_worker (k_vars t) (k_writers t) rd (k_seen t) (Some (job_proc v j, x)) l, k, g)
          | None => let (o, s) := exec v c ty x (machine_of t k g) in
                    let* y := noted o in
                    Ok (mk_worker (m_vars s) (m_writers s) (m_readers s) (k_seen t ++ [y]) None l, m_disk s, m_globals s)
          end
      end
  | Some (Race.Done o _, x) =>
      let (o', m) := concludes x o (k_vars t) in
      let* y := noted o' in
      Ok (mk_worker m (k_writers t) (k_readers t) (k_seen t ++ [y]) None (k_todo t), k, g)
  | Some (p, x) =>
      let (p', g') := thread_step p g in
      Ok (mk_worker (k_vars t) (k_writers t) (k_readers t) (k_seen t) (Some (p', x)) (k_todo t), k, g')
  end.
(** The threads, by number. *)
Definition workers := nat -> worker.
(** Helper: thread [i] is now [t]. *)
Definition set_worker (w : workers) (i : nat) (t : worker) : workers := fun n => if (n =? i)%nat then t else w n.
(** A schedule says which thread moves. Undefined behaviour or a failed assertion anywhere
    ends everything. *)
Fixpoint run_workers (v : env) (c : codec) (ty : nat -> typing) (sched : list nat) (w : workers) (k : disk) (g : globals)
  : outcome (workers * disk * globals) :=
  match sched with
  | [] => Ok (w, k, g)
  | i :: r => let* x := moves v c (ty i) (w i) k g in
              let '(t, k', g') := x in run_workers v c ty r (set_worker w i t) k' g'
  end.
(** [safe_at w i]: thread [i] may move when the threads are as in [w]. *)
Fixpoint arranged (safe_at : workers -> nat -> Prop) (v : env) (c : codec) (ty : nat -> typing) (sched : list nat)
    (w : workers) (k : disk) (g : globals) : Prop :=
  match sched with
  | [] => True
  | i :: r => safe_at w i /\ match moves v c (ty i) (w i) k g with
                             | Ok (t, k', g') => arranged safe_at v c ty r (set_worker w i t) k' g'
                             | _ => True
                             end
  end.
(** Thread [i] is in a call that parses a header, or about to begin one. *)
Definition parsing (t : worker) : Prop :=
  k_call t <> None \/ match k_todo t with x :: _ => reads_header x = true | [] => False end.
(** A lock held around each call that parses a header, and around no other call. *)
Definition header_lock (w : workers) (i : nat) : Prop :=
  parsing (w i) -> forall j, j <> i -> k_call (w j) = None.
(** No lock, but no thread works on headers while another is between filling BUFFER and
    copying its token out. *)
Definition tokens_whole (w : workers) (i : nat) : Prop :=
  parsing (w i) -> forall j, j <> i -> match k_call (w j) with Some (p, _) => mid_token p = false | None => True end.
(** Threads that have not begun. *)
Definition idle (ty : nat -> typing) (programs : nat -> list step) : workers :=
  fun i => mk_worker (fun n => mk_tensor [] [] false (ty i n) []) (fun _ => None) (fun _ => None) [] None (programs i).
