(** NPY files by path: include/npy/npy.h 271-279, 346-353, src/npy.cpp 127-134. *)
From Coq Require Import String ZArith List Bool Lia.
From Verif Require Import Base Stream Dtype Values Header Tensor Npy.
Import ListNotations.
Open Scope Z_scope.

(** A file system: what each path that can be opened for reading holds, and which
    paths can be opened for writing. Not in /repo: the operating system. *)
Record disk := mk_disk {
  file_at : bytes -> option bytes;
  can_write : bytes -> bool
}.
(** Helper: the file at [p] is replaced. *)
Definition disk_put (k : disk) (p b : bytes) : disk :=
  mk_disk (fun q => if beq q p then Some b else file_at k q) (can_write k).

(** include/npy/npy.h 271-279: save(path, tensor, endianness). std::ofstream's
    constructor truncates the file; the stream's state is not looked at afterwards,
    so a write that fails is not noticed. [taken] is the number of bytes the disk
    takes before it is full or the machine stops. *)
Definition save_path (v : env) (t : tensor) (e : endian) (p : bytes) (taken : Z) (k : disk)
  : outcome unit * disk :=
  if can_write k p then
    match save v t e with
    | Ok b => (Ok tt, disk_put k p (ztake taken b))
    | Throw x => (Throw x, disk_put k p [])
    | AssertFail => (AssertFail, disk_put k p [])
    | Undef u => (Undef u, disk_put k p [])
    end
  else (Throw InvalidArgument, k).

(** include/npy/npy.h 346-353: load(path) *)
Definition load_path (v : env) (d : dtype) (p : bytes) (k : disk) (g : globals) : outcome tensor * globals :=
  match file_at k p with
  | None => (Throw InvalidArgument, g)
  | Some b => let '(o, _, g') := load v d (open_file b) g in (o, g')
  end.
(** src/npy.cpp 127-134: peek(path) *)
Definition peek_path (v : env) (p : bytes) (k : disk) (g : globals) : outcome header_info * globals :=
  match file_at k p with
  | None => (Throw InvalidArgument, g)
  | Some b => let '(o, _, g') := peek v (open_file b) g in (o, g')
  end.

(** A program that saves, loads and peeks. *)
Inductive file_step :=
| FSave (v : env) (t : tensor) (e : endian) (p : bytes)
| FLoad (v : env) (d : dtype) (p : bytes)
| FPeek (v : env) (p : bytes).
(** One step; writes are complete. An exception of a step is caught and ignored. *)
Definition file_run1 (x : file_step) (s : disk * globals) : disk * globals :=
  let (k, g) := s in
  match x with
  | FSave v t e p => (snd (save_path v t e p (match save v t e with Ok b => len b | _ => 0 end) k), g)
  | FLoad v d p => (k, snd (load_path v d p k g))
  | FPeek v p => (k, snd (peek_path v p k g))
  end.
(** The whole program *)
Definition file_run (l : list file_step) (s : disk * globals) : disk * globals :=
  fold_left (fun s x => file_run1 x s) l s.
