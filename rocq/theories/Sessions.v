(** Several runs of programs, one after the other, over the files they leave behind. *)
From Coq Require Import String ZArith List Bool Lia.
From Verif Require Import Base Dtype Npz Files ProgramSpec Program.
Import ListNotations.
Open Scope Z_scope.

(** The files on the disk. Not in /repo: the operating system. *)
Definition contents := bytes -> option bytes.
(** What the user and other programs do between two runs. [Put p b z]: [b] is written to
    [p]; [z] says what they mean by it (used by SessionSpec.v only). *)
Inductive outside :=
| Copied (p q : bytes)
| Removed (p : bytes)
| Renamed (p q : bytes)
| Put (p b : bytes) (z : content).
Definition write_to (k : contents) (p b : bytes) : contents := fun q => if beq q p then Some b else k q.
Definition outside_step (k : contents) (x : outside) : contents :=
  match x with
  | Copied p q => match k p with Some b => write_to k q b | None => k end
  | Removed p => fun q => if beq q p then None else k q
  | Renamed p q => match k p with
                   | Some b => fun r => if beq r q then Some b else if beq r p then None else k r
                   | None => k
                   end
  | Put p b _ => write_to k p b
  end.

(** One run: the machine and build, the program and the types of its variables, which paths
    it can write, and what happens to the files before the next run. The process ends when
    the program does: the library's state is gone (src/npy.cpp 10-11, src/dtype.cpp 29-45)
    and so are the objects, without their destructors unless the program has [SEnd]
    (a process that is killed, or std::_Exit). *)
Record session := mk_session {
  s_env : env;
  s_codec : codec;
  s_types : typing;
  s_opens : bytes -> bool;
  s_program : list step;
  s_after : list outside
}.
Fixpoint run_sessions (l : list session) (k : contents) : outcome (list (list seen) * contents) :=
  match l with
  | [] => Ok ([], k)
  | x :: l' =>
      let* r := execute (s_env x) (s_codec x) (s_types x) (s_program x) (fresh_machine (s_types x) (mk_disk k (s_opens x))) in
      let* r' := run_sessions l' (fold_left outside_step (s_after x) (file_at (m_disk (snd r)))) in
      Ok (fst r :: fst r', snd r')
  end.
