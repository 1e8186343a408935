(** Any number of threads, each loading and peeking streams of its own, over the one
    BUFFER and the one DTYPE_MAP (src/npy.cpp 10-11, src/dtype.cpp 20). The steps are
    those of Race.v. *)
From Coq Require Import String ZArith List Bool Lia.
From Verif Require Import Base Stream Dtype Values Header Tensor Npy Race.
Import ListNotations.
Open Scope Z_scope.

(** What a call gives back. *)
Inductive answer := Header_of (h : header_info) | Tensor_of (t : tensor).
(** include/npy/npy.h 333-336, 367-369: a call of load<tensor<T>>(stream) or peek(stream)
    on a stream no other thread uses. *)
Inductive job := JLoad (d : dtype) (s : istream) | JPeek (s : istream).

(** include/npy/npy.h 296-320: read_npy_header up to the parse of the dictionary, which is
    all on the thread's own stream: the dictionary text and the stream after it, or how
    the call ends. The branches are those of [Header.read_npy_header]. *)
Definition header_text (v : env) (s : istream) : outcome (bytes * istream) :=
  let (got, s1) := sread STATIC_HEADER_LENGTH s in
  let h := cells 10 got in
  let* x :=
    (let* _ := (if dbg v then check_magic h 0 [147; 78; 85; 77; 80; 89] else Ok tt) in
     let* v1 := and_then (cell_is h 6 1) (cell_is h 7 0) in
     if v1 then
       let* a := cell h 8 in let* b := cell h 9 in Ok (a + 256 * b, s1)
     else
       let* v2 := and_then (cell_is h 6 2) (cell_is h 7 0) in
       if v2 then
         let (ex, s2) := sread 2 s1 in
         let x := cells 2 ex in
         let* a := cell h 8 in let* b := cell h 9 in
         let* c := cell x 0 in let* d := cell x 1 in
         Ok (s32_to_size (a + 256 * b + 65536 * c + 16777216 * d), s2)
       else Ok (0, s1)) in
  let (n, s2) := x in
  if n >? mem v then Throw AllocError
  else let (d, s3) := sread n s2 in Ok (d ++ zrepeat 0 (n - len d), s3).
(** include/npy/npy.h 296-320, 333-336, 367-369: the call as a process *)
Definition job_proc (v : env) (j : job) : proc answer :=
  let s := match j with JLoad _ s | JPeek s => s end in
  match header_text v s with
  | Ok (text, s1) =>
      pbind (parse_thread v text) (fun h _ =>
        match j with
        | JPeek _ => Done (Ok (Header_of h)) s1
        | JLoad d _ => let (o, s2) := tensor_load v d h s1 in Done (let* t := o in Ok (Tensor_of t)) s2
        end)
  | Throw x => Done (Throw x) s
  | AssertFail => Done AssertFail s
  | Undef u => Done (Undef u) s
  end.

(** A thread: the calls it has finished (exceptions caught), the one it is in, and those to
    come. *)
Record thread := mk_thread {
  finished : list (outcome answer);
  current : option (proc answer);
  todo : list job
}.
(** Helper: a thread at its start *)
Definition new_thread (l : list job) : thread := mk_thread [] None l.
(** One step of a thread: begin the next call, return from the current one, or one access
    to the globals. *)
Definition advance (v : env) (t : thread) (g : globals) : thread * globals :=
  match current t with
  | None => match todo t with
            | [] => (t, g)
            | j :: l => (mk_thread (finished t) (Some (job_proc v j)) l, g)
            end
  | Some (Done o _) => (mk_thread (finished t ++ [o]) None (todo t), g)
  | Some p => let (p', g') := thread_step p g in (mk_thread (finished t) (Some p') (todo t), g')
  end.
(** The threads of a program, by number. *)
Definition pool := nat -> thread.
(** Helper: thread [i] is now [t]. *)
Definition set_thread (w : pool) (i : nat) (t : thread) : pool := fun k => if Nat.eqb k i then t else w k.
(** A schedule says which thread takes each step. *)
Fixpoint run_pool (v : env) (sched : list nat) (w : pool) (g : globals) : pool * globals :=
  match sched with
  | [] => (w, g)
  | i :: r => let (t, g') := advance v (w i) g in run_pool v r (set_thread w i t) g'
  end.
(** [safe_at w i]: thread [i] may take a step when the threads are as in [w]. *)
Fixpoint scheduled (safe_at : pool -> nat -> Prop) (v : env) (sched : list nat) (w : pool) (g : globals) : Prop :=
  match sched with
  | [] => True
  | i :: r => safe_at w i /\ let (t, g') := advance v (w i) g in scheduled safe_at v r (set_thread w i t) g'
  end.
(** No other thread is between filling BUFFER and copying its token out. *)
Definition tokens_apart (w : pool) (i : nat) : Prop :=
  forall j, j <> i -> match current (w j) with Some p => mid_token p = false | None => True end.
(** No other thread is inside a call: what a lock held around every call gives. *)
Definition locked (w : pool) (i : nat) : Prop := forall j, j <> i -> current (w j) = None.
(** A thread whose next step writes BUFFER, or writes DTYPE_MAP (src/dtype.cpp: operator[]
    inserts an unknown code). *)
Definition writes_buffer (t : thread) : Prop := exists b k, current t = Some (Fill b k) /\ b <> [].
(** Helper: its next step reads BUFFER. *)
Definition reads_buffer (t : thread) : Prop := exists n k, current t = Some (Take n k) /\ 0 < n.
(** C++ [intro.races]: two threads about to access BUFFER, one of them to write it. Not in /repo. *)
Definition data_race (w : pool) : Prop :=
  exists i j, i <> j /\ writes_buffer (w i) /\ (writes_buffer (w j) \/ reads_buffer (w j)).
