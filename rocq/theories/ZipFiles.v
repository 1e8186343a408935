(** NPZ archives by path: npzfilewriter and npzfilereader (include/npy/npy.h 465-536,
    595-665, src/npz.cpp 462-512, 542-592) over the file system of Files.v. *)
From Coq Require Import String ZArith List Bool Lia.
From Verif Require Import Base Stream Dtype Values Header Tensor Npy Npz Files.
Import ListNotations.
Open Scope Z_scope.

(** What is under an open file. Not in /repo: the operating system and std::ofstream's
    buffer. [takes]: how many bytes of this file the disk takes; what is written beyond
    is lost. [noticed n]: whether the stream has gone bad once [n] > [takes] bytes have
    been handed to it (it may find out late, when its buffer is flushed). [flushed n]:
    how many of the first [n] bytes are on the disk while the file is still open. *)
Record device := mk_device {
  takes : Z;
  noticed : Z -> bool;
  flushed : Z -> Z
}.
(** std::ofstream::write on that file: [o_bytes] is what was handed over while the stream
    was good. Not in /repo: the C++ library. *)
Definition dwrite (d : device) (o : ostream) (b : bytes) : ostream :=
  if o_ok o then
    let t := o_bytes o ++ b in
    mk_ostream t (negb ((takes d <? len t) && noticed d (len t)))
  else o.

(** include/npy/npy.h 465-536: npzfilewriter. [fw_open] is m_output.is_open(). *)
Record file_writer := mk_file_writer {
  fw_path : bytes;
  fw_open : bool;
  fw_dev : device;
  fw_w : writer
}.
(** src/npz.cpp 467-482: the constructors. std::ofstream truncates the file when it
    opens; nothing looks at whether it did. *)
Definition fw_new (d : device) (p : bytes) (m : Z) (e : endian) (k : disk) : file_writer * disk :=
  (mk_file_writer p (can_write k p) d (new_file_writer (can_write k p) m e),
   if can_write k p then disk_put k p [] else k).
(** src/npz.cpp 490: is_open *)
Definition fw_is_open (w : file_writer) : bool := fw_open w.
(** Helper: the bytes of an open archive that are on the disk now. *)
Definition on_disk (w : file_writer) : bytes :=
  let b := w_str (fw_w w) in ztake (Z.min (takes (fw_dev w)) (flushed (fw_dev w) (len b))) b.
(** include/npy/npy.h 507-523, src/npz.cpp 492-500: write *)
Definition fw_write (v : env) (c : codec) (w : file_writer) (name : bytes) (t : tensor) (k : disk)
  : outcome unit * file_writer * disk :=
  match w_write_on (dwrite (fw_dev w)) v c (fw_w w) name t with
  | Ok x => let w' := mk_file_writer (fw_path w) (fw_open w) (fw_dev w) x in
            (Ok tt, w', if fw_open w then disk_put k (fw_path w) (on_disk w') else k)
  | Throw x => (Throw x, w, k)
  | AssertFail => (AssertFail, w, k)
  | Undef u => (Undef u, w, k)
  end.
(** src/npz.cpp 502-508: close: the directory, then m_output.close(), which flushes. *)
Definition fw_close (w : file_writer) (k : disk) : file_writer * disk :=
  if w_closed (fw_w w) then (w, k)
  else
    let x := w_close_on (dwrite (fw_dev w)) (fw_w w) in
    (mk_file_writer (fw_path w) false (fw_dev w) x,
     if fw_open w then disk_put k (fw_path w) (ztake (takes (fw_dev w)) (w_str x)) else k).
(** src/npz.cpp 484-488: the destructor *)
Definition fw_destroy (w : file_writer) (k : disk) : disk :=
  if w_closed (fw_w w) then k else snd (fw_close w k).

(** src/npz.cpp 542-563: npzfilereader(path) *)
Definition fr_open (p : bytes) (k : disk) : outcome reader := new_file_reader (file_at k p).
(** src/npz.cpp 592: close. What a closed std::ifstream does next is fail to seek; the
    model sets its failbit at once (nothing but reads, which seek first, can tell). *)
Definition fr_close (r : reader) : reader := mk_reader (set_fail (r_in r)) (r_entries r) (r_keys r).

(** ** Programs *)
(** A program's file writers (named by numbers), the disk, and libnpy's global state. *)
Record world := mk_world {
  disk_of : disk;
  writers : Z -> option file_writer;
  globals_of : globals
}.
(** Helper: writer [h] is now [w]. *)
Definition set_writer (s : world) (h : Z) (w : option file_writer) (k : disk) : world :=
  mk_world k (fun i => if i =? h then w else writers s i) (globals_of s).
(** What a program can do: npzfilewriter objects under construction, use and
    destruction; opening a path as an archive and reading a name; the steps of Files.v. *)
Inductive zip_step :=
| ZNew (h : Z) (d : device) (p : bytes) (m : Z) (e : endian)
| ZWrite (h : Z) (name : bytes) (t : tensor)
| ZClose (h : Z)
| ZDestroy (h : Z)
| ZRead (d : dtype) (p name : bytes)
| ZFile (x : file_step).
(** One step and what it returns (for a read: not the tensor). Constructing over a live
    writer destroys that one first; using a dead one does nothing. *)
Definition zip_run1 (v : env) (c : codec) (x : zip_step) (s : world) : outcome unit * world :=
  match x with
  | ZNew h d p m e =>
      let k := match writers s h with Some w => fw_destroy w (disk_of s) | None => disk_of s end in
      let (w, k') := fw_new d p m e k in (Ok tt, set_writer s h (Some w) k')
  | ZWrite h name t =>
      match writers s h with
      | Some w => let '(o, w', k) := fw_write v c w name t (disk_of s) in (o, set_writer s h (Some w') k)
      | None => (Ok tt, s)
      end
  | ZClose h =>
      match writers s h with
      | Some w => let (w', k) := fw_close w (disk_of s) in (Ok tt, set_writer s h (Some w') k)
      | None => (Ok tt, s)
      end
  | ZDestroy h =>
      match writers s h with
      | Some w => (Ok tt, set_writer s h None (fw_destroy w (disk_of s)))
      | None => (Ok tt, s)
      end
  | ZRead d p name =>
      match fr_open p (disk_of s) with
      | Ok r => let '(o, _, g) := r_read v c d r name (globals_of s) in
                (let* _ := o in Ok tt, mk_world (disk_of s) (writers s) g)
      | Throw e => (Throw e, s)
      | AssertFail => (AssertFail, s)
      | Undef u => (Undef u, s)
      end
  | ZFile y => let (k, g) := file_run1 y (disk_of s, globals_of s) in (Ok tt, mk_world k (writers s) g)
  end.
(** A whole program: what each step returned and the state it leaves. Exceptions are
    caught; the program goes on. *)
Fixpoint zip_run (v : env) (c : codec) (l : list zip_step) (s : world) : list (outcome unit) * world :=
  match l with
  | [] => ([], s)
  | x :: l' => let (o, s1) := zip_run1 v c x s in let (os, s2) := zip_run v c l' s1 in (o :: os, s2)
  end.
