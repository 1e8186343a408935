(** What runs of programs over the same files should see: each run is the ideal program of
    ProgramSpec.v, and files keep what they hold. *)
From Coq Require Import String ZArith List Bool Lia Permutation.
From Verif Require Import Base Dtype Values Spec ZipSpec TensorFacts PropForeign PropDeflate PropOthers Npz Program ProgramSpec Sessions PropCompress.
Import ListNotations.
Open Scope Z_scope.

(** ** Files of other programs *)
(** An NPY file of the array [a], as any program may write it: version 1.0 or 2.0, the keys
    in any order and with any blanks, either byte order (complex numbers: little-endian),
    strings padded to any length, anything after the elements. *)
Definition npy_file (a : array) (b : bytes) : Prop :=
  bytes_ok b /\ exists es tail big n start following,
    Forall layout_ok es /\
    Permutation (map value es) [FDescr (spelled (a_type a) big n); FOrder (a_fortran a); FShape (a_shape a)] /\
    0 <= n <= 2147483647 /\ shape_ok (a_shape a) /\ len (tuple_body (a_shape a)) < 65535 /\ product (a_shape a) < 2 ^ 64 /\
    values_ok (a_type a) (elements a) /\ Forall no_nuls (elements a) /\ Forall (at_most n) (elements a) /\
    (is_complex_type (a_type a) -> big = false) /\
    npy_start (dict_text es tail) start /\
    b = start ++ flat_map (PropForeign.stored_bytes (a_type a) big n) (elements a) ++ following.
(** An archive of named arrays, as any program may write it: a ZIP file (ZipSpec.v) whose
    members are named *.npy and are NPY files, stored or DEFLATEd, with correct checksums. *)
Definition npz_member (p : bytes * array) (m : zfile) : Prop :=
  z_name m = fst p /\ npy_name (fst p) = fst p /\
  exists b, npy_file (snd p) b /\ unpacked m b /\ crc32_standard b = z_crc m /\
    len b < 2 ^ 32 /\ len (z_data m) <= 2 ^ 32 /\ (z_method m = 8 -> ~ may_be_refused (z_data m) b).
Definition npz_file (items : list (bytes * array)) (b : bytes) : Prop :=
  exists ms, zip_file b ms /\ Forall2 npz_member items ms.
Definition holds (z : option content) (f : option bytes) : Prop :=
  match z, f with
  | None, None => True
  | Some (Holds a), Some b => npy_file a b
  | Some (Members items), Some b => npz_file items b
  | Some Unknown, _ => True
  | _, _ => False
  end.

(** ** The ideal runs *)
Definition knowledge := bytes -> option content.
Definition begun (F : knowledge) : world := mk_world (fun _ => None) F (fun _ => None) (fun _ => None).
Definition known_at (F : knowledge) (p : bytes) (z : content) : knowledge := fun q => if beq q p then Some z else F q.
Definition ideal_outside (F : knowledge) (x : outside) : knowledge :=
  match x with
  | Copied p q => match F p with Some z => known_at F q z | None => F end
  | Removed p => fun q => if beq q p then None else F q
  | Renamed p q => match F p with
                   | Some z => fun r => if beq r q then Some z else if beq r p then None else F r
                   | None => F
                   end
  | Put p _ z => known_at F p z
  end.
Definition ideal_run (x : session) (F : knowledge) : list seen * world :=
  ideally (mem (s_env x)) (s_opens x) (s_types x) (s_program x) (begun F).
Definition left_by (x : session) (F : knowledge) : knowledge :=
  fold_left ideal_outside (s_after x) (files (snd (ideal_run x F))).
Fixpoint ideal_sessions (l : list session) (F : knowledge) : list (list seen) :=
  match l with
  | [] => []
  | x :: l' => fst (ideal_run x F) :: ideal_sessions l' (left_by x F)
  end.

(** Which runs the comparison covers: on any little-endian machine, any build; the steps
    of each program as in ProgramSpec.v; files that come from elsewhere are what they are
    said to be. *)
Definition outside_ok (x : outside) : Prop :=
  match x with Put _ b z => holds (Some z) (Some b) | _ => True end.
Fixpoint sessions_covered (l : list session) (F : knowledge) : Prop :=
  match l with
  | [] => True
  | x :: l' =>
      libnpy_codec (s_env x) (s_codec x) /\ 2 ^ 32 <= mem (s_env x) /\
      all_covered (mem (s_env x)) false (s_opens x) (s_types x) (s_program x) (begun F) /\
      Forall outside_ok (s_after x) /\ sessions_covered l' (left_by x F)
  end.

(** ** A process that is killed inside a call *)
(** The files the call may be writing: the path of a save or a new archive; the file of the
    open archive that is written to, closed or destroyed (a new writer in the place of an
    old one destroys it). *)
Definition open_archive (w : world) (h : nat) (p : bytes) : Prop :=
  exists y, archivers w h = Some y /\ ar_opens y = true /\ ar_closed y = false /\ ar_path y = p.
Definition in_flight (w : world) (x : step) (p : bytes) : Prop :=
  match x with
  | SSave _ _ q => p = q
  | SNew h _ q _ _ => p = q \/ open_archive w h p
  | SWrite h _ _ | SClose h | SEnd h => open_archive w h p
  | _ => False
  end.
(** Those files may hold anything (a beginning of the new bytes, none, or the old ones);
    every other file is as it was. *)
Definition torn (w : world) (x : step) (before after : contents) : Prop :=
  forall p, ~ in_flight w x p -> after p = before p.
Definition knows_torn (w : world) (x : step) (F' : knowledge) : Prop :=
  forall p, (in_flight w x p /\ F' p = Some Unknown) \/ (~ in_flight w x p /\ F' p = files w p).
