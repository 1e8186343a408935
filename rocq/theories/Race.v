(** Two threads parsing headers.  src/npy.cpp 10-11: BUFFER is one global array with
    no lock; src/dtype.cpp 20: DTYPE_MAP is one global map.  Here the parser of
    Header.v is written out as a process whose steps on those two globals are
    separate: filling BUFFER (istream::get, istream::read), building a string from
    BUFFER, looking a code up in DTYPE_MAP.  Everything else a parse does touches
    only its own stream, and is attached to the step before it.

    Simplification: filling is one step, copying out is one step and a map lookup is
    one step.  The hardware has finer interleavings (single bytes), and calls any two
    conflicting accesses a data race; so interference shown here exists there too,
    and the exclusion theorem speaks about schedules that keep a fill and its copy
    together. *)
From Coq Require Import String ZArith List Bool Lia.
From Verif Require Import Base Stream Dtype Header.
Import ListNotations.
Open Scope Z_scope.

(** src/npy.cpp 13-118: the parser as a sequence of accesses to the two globals *)
Inductive proc (A : Type) :=
| Done (o : outcome A) (s : istream)
| Fill (b : bytes) (k : proc A)                     (* write b at BUFFER[0..] *)
| Take (n : Z) (k : bytes -> proc A)                (* std::string(BUFFER, BUFFER + n) *)
| Lookup (c : bytes) (k : dtype * endian -> proc A). (* from_dtype(c) *)
Arguments Done {A}. Arguments Fill {A}. Arguments Take {A}. Arguments Lookup {A}.

(** Sequencing, with the thread's own stream threaded through. *)
Definition R (A : Type) := istream -> proc A.
(** Helper: sequencing. *)
Fixpoint pbind {A B} (p : proc A) (f : A -> R B) : proc B :=
  match p with
  | Done (Ok a) s => f a s
  | Done (Throw e) s => Done (Throw e) s
  | Done AssertFail s => Done AssertFail s
  | Done (Undef u) s => Done (Undef u) s
  | Fill b k => Fill b (pbind k f)
  | Take n k => Take n (fun t => pbind (k t) f)
  | Lookup c k => Lookup c (fun d => pbind (k d) f)
  end.
(** Helper: monad. *)
Definition rbind {A B} (m : R A) (f : A -> R B) : R B := fun s => pbind (m s) f.
(** Helper: monad. *)
Definition rret {A} (a : A) : R A := fun s => Done (Ok a) s.
(** Helper: monad. *)
Definition rlift {A} (o : outcome A) : R A := fun s => Done o s.
(** Helper: an access to the thread's own stream. *)
Definition rstream {A} (f : istream -> A * istream) : R A := fun s => let (a, s') := f s in Done (Ok a) s'.

Declare Scope race_scope.
Delimit Scope race_scope with race.
Notation "x <- m ;; k" := (rbind m (fun x => k))
  (at level 61, m at next level, right associativity) : race_scope.
Notation "m ;;; k" := (rbind m (fun _ => k))
  (at level 61, right associativity) : race_scope.
Open Scope race_scope.

(** src/npy.cpp 13-17 *)
Definition r_char (v : env) (expected : Z) : R unit :=
  c <- rstream sget ;;
  if dbg v then
    if c =? -1 then rlift (Undef UninitRead)
    else if c =? expected then rret tt else rlift AssertFail
  else rret tt.
(** src/npy.cpp 19-23 *)
Definition r_lit (v : env) (expected : bytes) : R unit := fun s =>
  let (got, s') := sread (len expected) s in
  Fill got (Take (len expected) (fun actual =>
    Done (if dbg v then if beq actual expected then Ok tt else AssertFail else Ok tt) s')).
(** src/npy.cpp 25-30 *)
Definition r_skip_ws : R unit := fun s => let (o, s') := skip_ws s in Done o s'.
(** src/npy.cpp 32-42 *)
Definition r_read_to (v : env) (delim : Z) : R bytes :=
  c <- rstream speek ;;
  if c =? delim then rret []
  else fun s =>
    let (got, s') := sgetbuf BUFFER_SIZE delim s in
    Fill (got ++ [0]) (
      if dbg v && negb (len got <? BUFFER_SIZE) then Done AssertFail s'
      else Take (len got) (fun t => Done (Ok t) s')).
(** src/npy.cpp 44-49 *)
Definition r_string (v : env) : R bytes :=
  r_char v 39 ;;;
  t <- r_read_to v 39 ;;
  r_char v 39 ;;;
  rret t.
(** src/npy.cpp 51-61 *)
Definition r_bool (v : env) : R bool :=
  c <- rstream speek ;;
  if c =? 84 then r_lit v (str "True") ;;; rret true
  else
    c2 <- rstream speek ;;
    if c2 =? 70 then r_lit v (str "False") ;;; rret false
    else rlift (Throw RuntimeError).
(** src/npy.cpp 63-80 *)
Definition r_shape (v : env) : R (list Z) :=
  r_char v 40 ;;;
  t <- r_read_to v 41 ;;
  r_char v 41 ;;;
  rlift (parse_shape t).
(** src/npy.cpp 93-104 *)
Definition r_descr (code : bytes) : R (dtype * endian * Z) :=
  match code with
  | [] => rlift (Undef OutOfBounds)
  | c0 :: t =>
      if (match t with c1 :: _ => c1 =? 85 | [] => false end) then
        n <- rlift (stoi (zdrop 2 code)) ;;
        rret (UNICODE_STRING, if c0 =? 62 then BIG else LITTLE, u64 n)
      else fun s => Lookup code (fun de => Done (Ok (fst de, snd de, 0)) s)
  end.
(** src/npy.cpp 87-114 *)
Definition r_entry (v : env) (h : header_info) : R header_info :=
  r_skip_ws ;;;
  key <- r_string v ;;
  r_skip_ws ;;;
  r_char v 58 ;;;
  r_skip_ws ;;;
  h' <- (if beq key (str "descr") then
           code <- r_string v ;;
           x <- r_descr code ;;
           let '(d, e, n) := x in
           rret (mk_header (Some d) (Some e) (h_fortran h) (h_shape h) (Some n))
         else if beq key (str "fortran_order") then
           b <- r_bool v ;;
           rret (mk_header (h_dtype h) (h_endian h) (Some b) (h_shape h) (h_maxlen h))
         else if beq key (str "shape") then
           sh <- r_shape v ;;
           rret (mk_header (h_dtype h) (h_endian h) (h_fortran h) sh (h_maxlen h))
         else rlift (Throw RuntimeError)) ;;
  r_char v 44 ;;;
  r_skip_ws ;;;
  rret h'.
(** src/npy.cpp 86-117 *)
Fixpoint r_entries (v : env) (fuel : nat) (h : header_info) : R header_info :=
  match fuel with
  | O => rlift (Undef OutOfFuel)
  | S f =>
      c <- rstream speek ;;
      if c =? 125 then r_char v 125 ;;; rret h
      else h' <- r_entry v h ;; r_entries v f h'
  end.
(** src/npy.cpp 84-118: header_info::header_info(dictionary), as a thread. *)
Definition parse_thread (v : env) (d : bytes) : proc header_info :=
  (r_char v 123 ;;; r_entries v (S (length d)) header_uninit) (open_str d).

(** ** Execution *)
(** One step of one thread on the globals; a finished thread stays as it is. *)
Definition thread_step {A} (p : proc A) (g : globals) : proc A * globals :=
  match p with
  | Done _ _ => (p, g)
  | Fill b k => (k, (blit b (fst g), snd g))
  | Take n k => (k (ztake n (fst g)), g)
  | Lookup c k => let (de, m) := from_dtype c (snd g) in (k de, (fst g, m))
  end.
(** Two threads under a schedule; [false] runs the first one, [true] the second. *)
Fixpoint run {A B} (sched : list bool) (p : proc A) (q : proc B) (g : globals)
  : proc A * proc B * globals :=
  match sched with
  | [] => (p, q, g)
  | false :: r => let (p', g') := thread_step p g in run r p' q g'
  | true :: r => let (q', g') := thread_step q g in run r p q' g'
  end.
(** A thread between filling BUFFER and copying its token out of it. *)
Definition mid_token {A} (p : proc A) : bool := match p with Take _ _ => true | _ => false end.
(** A schedule that never switches away from a thread in that place. *)
Fixpoint tokens_together {A B} (sched : list bool) (p : proc A) (q : proc B) (g : globals) : Prop :=
  match sched with
  | [] => True
  | false :: r => mid_token q = false /\ let (p', g') := thread_step p g in tokens_together r p' q g'
  | true :: r => mid_token p = false /\ let (q', g') := thread_step q g in tokens_together r p q' g'
  end.
