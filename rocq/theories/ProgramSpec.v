(** What a program that uses libnpy should see: the same steps over arrays that are
    functions from indices to elements, files that hold one array or a list of named
    arrays, and readers that are snapshots of such a list. Nothing here refers to how
    libnpy stores, encodes or compresses anything; from the model come only the syntax of
    programs (Program.v [step], [seen]) and the data types. *)
From Coq Require Import String ZArith List Bool Lia.
From Verif Require Import Base Dtype Values Tensor TensorVars Npz ZipFiles Spec Program.
Import ListNotations.
Open Scope Z_scope.

(** ** Arrays *)
Record array := mk_array {
  a_type : dtype;
  a_shape : list Z;
  a_fortran : bool;
  a_at : list Z -> elem      (* the element at each index in range *)
}.
(** All indices of a shape, the last component moving fastest. *)
Fixpoint all_indices (shape : list Z) : list (list Z) :=
  match shape with
  | [] => [[]]
  | d :: dims => flat_map (fun i => map (cons (Z.of_nat i)) (all_indices dims)) (seq 0 (Z.to_nat d))
  end.
(** The elements in the array's order: the last index fastest (C), or the first (FORTRAN). *)
Definition elements (a : array) : list elem :=
  map (a_at a) (if a_fortran a then map (@rev Z) (all_indices (rev (a_shape a))) else all_indices (a_shape a)).

(** Zero, false, 0+0i, or the empty string. *)
Definition zero_of (d : dtype) : elem :=
  match d with UNICODE_STRING => WStr [] | COMPLEX64 | COMPLEX128 => Cplx 0 0 | _ => Scalar 0 end.
Definition zeros (d : dtype) (shape : list Z) (fortran : bool) : array :=
  mk_array d shape fortran (fun _ => zero_of d).
(** numpy's rule for signed indices: as many components as dimensions, each from -d to d-1. *)
Fixpoint valid (index shape : list Z) : bool :=
  match index, shape with
  | [], [] => true
  | i :: index', d :: shape' => (- d <=? i) && (i <? d) && valid index' shape'
  | _, _ => false
  end.
Fixpoint same_index (i j : list Z) : bool :=
  match i, j with
  | [], [] => true
  | x :: i', y :: j' => (x =? y) && same_index i' j'
  | _, _ => false
  end.
Definition element (a : array) (index : list Z) : option elem :=
  if valid index (a_shape a) then Some (a_at a (normalised index (a_shape a))) else None.
Definition stored (a : array) (index : list Z) (x : elem) : option array :=
  if valid index (a_shape a) then
    Some (mk_array (a_type a) (a_shape a) (a_fortran a)
            (fun j => if same_index j (normalised index (a_shape a)) then x else a_at a j))
  else None.
(** All elements at once, in the array's order. *)
Definition filled (a : array) (src : list elem) : option array :=
  if len src =? product (a_shape a) then
    Some (mk_array (a_type a) (a_shape a) (a_fortran a)
            (fun j => nth (Z.to_nat (position (a_fortran a) j (a_shape a))) src (zero_of (a_type a))))
  else None.

(** ** The world of the program *)
Inductive content :=
| Holds (a : array)                            (* an NPY file *)
| Members (items : list (bytes * array))       (* a finished archive *)
| Unknown.                                     (* an archive being written, or a file from before *)
Record archiver := mk_archiver {
  ar_path : bytes;
  ar_opens : bool;                             (* whether the path could be opened *)
  ar_method : Z;
  ar_endian : endian;
  ar_items : list (bytes * array);             (* in the order of the writes *)
  ar_closed : bool
}.
Record world := mk_world {
  vars : nat -> option array;                  (* None: moved from, or never constructed *)
  files : bytes -> option content;
  archivers : nat -> option archiver;
  snapshots : nat -> option (bytes * list (bytes * array))    (* open readers: path and members *)
}.
Definition set_var (w : world) (i : nat) (x : option array) : world :=
  mk_world (fun k => if (k =? i)%nat then x else vars w k) (files w) (archivers w) (snapshots w).
Definition set_file (w : world) (p : bytes) (x : content) : world :=
  mk_world (vars w) (fun q => if beq q p then Some x else files w q) (archivers w) (snapshots w).
Definition set_archiver (w : world) (h : nat) (x : option archiver) : world :=
  mk_world (vars w) (files w) (fun k => if (k =? h)%nat then x else archivers w k) (snapshots w).
Definition set_snapshot (w : world) (r : nat) (x : option (bytes * list (bytes * array))) : world :=
  mk_world (vars w) (files w) (archivers w) (fun k => if (k =? r)%nat then x else snapshots w k).

(** The sorted list of the stored names. *)
Fixpoint name_le (a b : bytes) : bool :=
  match a, b with
  | [], _ => true
  | _ :: _, [] => false
  | x :: a', y :: b' => (x <? y) || ((x =? y) && name_le a' b')
  end.
Fixpoint place_name (k : bytes) (l : list bytes) : list bytes :=
  match l with
  | [] => [k]
  | x :: t => if name_le k x then k :: l else x :: place_name k t
  end.
Definition sorted_names (items : list (bytes * array)) : list bytes :=
  fold_right place_name [] (map (fun p => npy_name (fst p)) items).

(** ** One step *)
(** What a variable of type [d] receives from a stored array: the array itself, or an
    exception (memory for an array of that many elements of the variable's type is
    allocated before the types are compared). *)
Definition received (memory : Z) (d : dtype) (a : array) : exn + array :=
  if product (a_shape a) * item_size d >? memory then inl AllocError
  else match dtype_eqb d (a_type a) with true => inr a | false => inl RuntimeError end.
(** A writer that is closed or destroyed leaves its members in the file. *)
Definition finished (w : world) (y : archiver) : world :=
  if ar_opens y && negb (ar_closed y) then set_file w (ar_path y) (Members (ar_items y)) else w.
Definition ideal_var (memory : Z) (ty : typing) (a : action) (w : world) : seen * world :=
  match a with
  | AMake i shape f =>
      if product shape * item_size (ty i) >? memory then (Caught AllocError, w)
      else (Done, set_var w i (Some (zeros (ty i) shape f)))
  | ACopyMake i j | ACopy i j => (Done, set_var w i (vars w j))
  | AMoveMake i j => (Done, set_var (set_var w j None) i (vars w j))
  | AMove i j => (Done, set_var (set_var w i (vars w j)) j None)
  | ASet i index x =>
      match vars w i with
      | Some y => match stored y index x with
                  | Some y' => (Done, set_var w i (Some y'))
                  | None => (Caught InvalidArgument, w)
                  end
      | None => (Done, w)
      end
  | AFill i src =>
      match vars w i with
      | Some y => match filled y src with
                  | Some y' => (Done, set_var w i (Some y'))
                  | None => (Caught InvalidArgument, w)
                  end
      | None => (Done, w)
      end
  end.
(** [opens p]: whether the path can be opened for writing. *)
Definition ideal (memory : Z) (opens : bytes -> bool) (ty : typing) (x : step) (w : world) : seen * world :=
  match x with
  | SVar a => ideal_var memory ty a w
  | SGet i index =>
      match vars w i with
      | Some y => (match element y index with Some e => Saw e | None => Caught InvalidArgument end, w)
      | None => (Done, w)
      end
  | SList i => match vars w i with Some y => (SawAll (elements y), w) | None => (Done, w) end
  | SSave i _ p =>
      if opens p then match vars w i with Some y => (Done, set_file w p (Holds y)) | None => (Done, w) end
      else (Caught InvalidArgument, w)
  | SLoad i p =>
      match files w p with
      | None => (Caught InvalidArgument, w)
      | Some (Holds y) => match received memory (ty i) y with
                          | inr y' => (Done, set_var w i (Some y'))
                          | inl e => (Caught e, w)
                          end
      | Some _ => (Done, w)
      end
  | SPeek p =>
      match files w p with
      | None => (Caught InvalidArgument, w)
      | Some (Holds y) => (SawHeader (a_type y) (a_fortran y) (a_shape y), w)
      | Some _ => (Done, w)
      end
  | SNew h _ p method e =>
      let w1 := match archivers w h with Some y => finished w y | None => w end in
      let w2 := if opens p then set_file w1 p Unknown else w1 in
      (Done, set_archiver w2 h (Some (mk_archiver p (opens p) method e [] false)))
  | SWrite h name i =>
      match archivers w h with
      | Some y =>
          if ar_closed y then (Caught RuntimeError, w)
          else match vars w i with
               | Some t => (Done, set_archiver w h (Some (mk_archiver (ar_path y) (ar_opens y) (ar_method y) (ar_endian y)
                                                             (ar_items y ++ [(name, t)]) false)))
               | None => (Done, w)
               end
      | None => (Done, w)
      end
  | SClose h =>
      match archivers w h with
      | Some y => (Done, set_archiver (finished w y) h
                           (Some (mk_archiver (ar_path y) (ar_opens y) (ar_method y) (ar_endian y) (ar_items y) true)))
      | None => (Done, w)
      end
  | SEnd h =>
      match archivers w h with
      | Some y => (Done, set_archiver (finished w y) h None)
      | None => (Done, w)
      end
  | SOpen r p =>
      match files w p with
      | None => (Caught InvalidArgument, set_snapshot w r None)
      | Some (Members items) => (Done, set_snapshot w r (Some (p, items)))
      | Some _ => (Done, w)
      end
  | SRead i r name =>
      match snapshots w r with
      | Some (_, items) =>
          match resolve items name with
          | Some y => match received memory (ty i) y with
                      | inr y' => (Done, set_var w i (Some y'))
                      | inl e => (Caught e, w)
                      end
          | None => (Caught InvalidArgument, w)
          end
      | None => (Done, w)
      end
  | SLook r name =>
      match snapshots w r with
      | Some (_, items) =>
          match resolve items name with
          | Some y => (SawHeader (a_type y) (a_fortran y) (a_shape y), w)
          | None => (Caught InvalidArgument, w)
          end
      | None => (Done, w)
      end
  | SHas r name =>
      match snapshots w r with
      | Some (_, items) => (SawBool (existsb (fun p => beq (npy_name (fst p)) name) items), w)
      | None => (Done, w)
      end
  | SKeys r =>
      match snapshots w r with
      | Some (_, items) => (SawKeys (sorted_names items), w)
      | None => (Done, w)
      end
  end.
Fixpoint ideally (memory : Z) (opens : bytes -> bool) (ty : typing) (l : list step) (w : world) : list seen * world :=
  match l with
  | [] => ([], w)
  | x :: l' => let (o, w1) := ideal memory opens ty x w in
               let (os, w2) := ideally memory opens ty l' w1 in (o :: os, w2)
  end.

(** ** Which steps the comparison covers *)
(** The sizes of an array in a file: dictionary text, whole header, data. *)
Definition dict_of (host_is_big : bool) (e : endian) (a : array) : bytes :=
  python_dict (array_descr (a_type a) (means_big host_is_big e) (elements a)) (a_fortran a) (a_shape a).
Definition file_size (host_is_big : bool) (e : endian) (a : array) : Z :=
  (len (dict_of host_is_big e a) + 11 + 63) / 64 * 64
  + product (a_shape a) * array_item (a_type a) (elements a).
(** An NPY file can record it: the dictionary text has at most 245 characters, strings
    are shorter than 2^31 and have no NUL in them. *)
Definition recordable (host_is_big : bool) (e : endian) (a : array) : Prop :=
  len (dict_of host_is_big e a) <= 245 /\ longest (elements a) <= 2147483647 /\ Forall no_nuls (elements a).
(** Sizes that survive compression and decompression (C49). *)
Definition survives (n : Z) : Prop :=
  n <= 2 ^ 15 \/ (n < 2 ^ 20 /\ (n mod 2 ^ 15 = 0 \/ 8128 < n mod 2 ^ 15)).
(** What the members of an archive can take in it at most, compressed or not. *)
Definition cost (host_is_big : bool) (e : endian) (p : bytes * array) : Z :=
  2 * len (fst p) + 2 * file_size host_is_big e (snd p) + 800.
Definition total (host_is_big : bool) (e : endian) (items : list (bytes * array)) : Z :=
  fold_right (fun p n => cost host_is_big e p + n) 22 items.

(** Nobody is writing to or reading from [p]. *)
Definition unused (w : world) (p : bytes) : Prop :=
  (forall h y, archivers w h = Some y -> ar_opens y = true -> ar_closed y = false -> ar_path y <> p) /\
  (forall r q items, snapshots w r = Some (q, items) -> q <> p).
Definition covered (host_is_big : bool) (opens : bytes -> bool) (ty : typing) (x : step) (w : world) : Prop :=
  match x with
  | SVar (AMake _ shape _) => shape_ok shape /\ product shape < 2 ^ 64
  | SVar (ACopyMake i j) | SVar (AMoveMake i j) | SVar (ACopy i j) | SVar (AMove i j) => ty i = ty j
  | SVar (ASet i index x) => elem_ok (ty i) x /\ int32_index index /\ vars w i <> None
  | SVar (AFill i src) => values_ok (ty i) src /\ vars w i <> None
  | SGet i index => int32_index index /\ vars w i <> None
  | SList i => vars w i <> None
  | SSave i e p =>
      opens p = true -> unused w p /\ exists y, vars w i = Some y /\ recordable host_is_big e y
  | SLoad _ p | SPeek p => forall z, files w p = Some z -> exists y, z = Holds y
  | SNew h d p method e =>
      (method = STORED \/ method = DEFLATED) /\ 2 ^ 32 <= takes d /\
      let w1 := match archivers w h with Some y => set_archiver (finished w y) h None | None => w end in
      (opens p = true -> unused w1 p)
  | SWrite h name i =>
      exists y, archivers w h = Some y /\ (ar_closed y = false ->
      exists t, vars w i = Some t /\
      recordable host_is_big (ar_endian y) t /\ len name <= 65531 /\
      total host_is_big (ar_endian y) (ar_items y ++ [(name, t)]) < 2 ^ 32 /\
      len (ar_items y) < 65535 /\
      (ar_method y = DEFLATED -> survives (file_size host_is_big (ar_endian y) t)))
  | SClose h | SEnd h => archivers w h <> None
  | SOpen _ p => forall z, files w p = Some z -> exists items, z = Members items
  | SRead _ r _ | SLook r _ | SHas r _ | SKeys r => snapshots w r <> None
  end.
Fixpoint all_covered (memory : Z) (host_is_big : bool) (opens : bytes -> bool) (ty : typing) (l : list step) (w : world) : Prop :=
  match l with
  | [] => True
  | x :: l' => covered host_is_big opens ty x w /\ all_covered memory host_is_big opens ty l' (snd (ideal memory opens ty x w))
  end.
