(** A variant of Parallel.v: threads that share arrays. Some of the variables are [common]: one object
    each, which every thread may use; the others each thread has for itself. *)
From Coq Require Import String ZArith List Bool Lia.
From Verif Require Import Base Stream Dtype Values Header Tensor Npy Npz TensorVars Files ZipFiles Race Threads Program Parallel.
Import ListNotations.
Open Scope Z_scope.

(** The variables a thread sees: the common ones, and its own. *)
Definition sees (common : nat -> bool) (shared own : objects) : objects :=
  fun n => if common n then shared n else own n.
(** Helper: a thread's variables *)
Definition with_vars (t : worker) (m : objects) : worker :=
  mk_worker m (k_writers t) (k_readers t) (k_seen t) (k_call t) (k_todo t).
(** One step of a thread, as [moves] in Parallel.v; afterwards the common variables are what the step left there. *)
Definition shared_moves (v : env) (c : codec) (ty : typing) (common : nat -> bool) (t : worker) (shared : objects) (k : disk) (g : globals)
  : outcome (worker * objects * disk * globals) :=
  let* x := moves v c ty (with_vars t (sees common shared (k_vars t))) k g in
  let '(t', k', g') := x in
  Ok (t', sees common (k_vars t') shared, k', g').
(** A schedule says which thread moves; see [run_workers]. *)
Fixpoint run_shared (v : env) (c : codec) (ty : nat -> typing) (common : nat -> bool) (sched : list nat) (w : workers) (shared : objects)
    (k : disk) (g : globals) : outcome (workers * objects * disk * globals) :=
  match sched with
  | [] => Ok (w, shared, k, g)
  | i :: r => let* x := shared_moves v c (ty i) common (w i) shared k g in
              let '(t, m, k', g') := x in run_shared v c ty common r (set_worker w i t) m k' g'
  end.
(** As [arranged] in Parallel.v *)
Fixpoint arranged_shared (safe_at : workers -> nat -> Prop) (v : env) (c : codec) (ty : nat -> typing) (common : nat -> bool) (sched : list nat)
    (w : workers) (shared : objects) (k : disk) (g : globals) : Prop :=
  match sched with
  | [] => True
  | i :: r => safe_at w i /\ match shared_moves v c (ty i) common (w i) shared k g with
                             | Ok (t, m, k', g') => arranged_shared safe_at v c ty common r (set_worker w i t) m k' g'
                             | _ => True
                             end
  end.
(** The variables a step may change: what it constructs or assigns, and what it moves from
    (include/npy/npy.h 701-725, 900-990). All else it uses through const references: save, write, operator(), at, begin, end. *)
Definition changes (x : step) : list nat :=
  match x with
  | SVar (AMake i _ _) | SVar (ACopyMake i _) | SVar (ACopy i _) | SVar (ASet i _ _) | SVar (AFill i _) => [i]
  | SVar (AMoveMake i j) | SVar (AMove i j) => [i; j]
  | SLoad i _ | SRead i _ _ => [i]
  | _ => []
  end.
