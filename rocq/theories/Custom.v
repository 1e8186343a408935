(** Tensor classes other than npy::tensor: the templates npy::save, npy::load and the
    npz classes over any class (include/npy/npy.h 239-252, 333-336, 433-449, 507-523,
    567-570, 634-637), and the class of examples/custom_tensors/custom.cpp. *)
From Coq Require Import String ZArith List Bool Lia.
From Verif Require Import Base Stream Dtype Values Header Tensor Npy Npz.
Import ListNotations.
Open Scope Z_scope.

(** include/npy/npy.h 239-252: what save() calls on its argument. [cs_save] stands for
    the bytes tensor.save(output, endianness) puts into the stream. *)
Record saveable := mk_saveable {
  cs_ndim : Z;
  cs_shape : Z -> outcome Z;
  cs_dtype : endian -> outcome bytes;
  cs_fortran : bool;
  cs_save : endian -> outcome bytes
}.
(** include/npy/npy.h 245-247 *)
Fixpoint class_dims (x : saveable) (n : nat) (d : Z) : outcome (list Z) :=
  match n with
  | O => Ok []
  | S n' => let* y := cs_shape x d in let* r := class_dims x n' (d + 1) in Ok (y :: r)
  end.
(** include/npy/npy.h 239-252: save<T>(stream, tensor, endianness). When tensor.save
    throws the header has been written already; only successful calls are followed up. *)
Definition save_class (x : saveable) (e : endian) : outcome bytes :=
  let* shape := class_dims x (Z.to_nat (cs_ndim x)) 0 in
  let* dt := cs_dtype x e in
  let* data := cs_save x e in
  Ok (write_npy_header dt (cs_fortran x) shape ++ data).
(** include/npy/npy.h 333-336: load<T>(stream); [L] is T::load(input, info). *)
Definition load_class {A} (v : env) (L : header_info -> istream -> outcome A * istream)
    (s : istream) (g : globals) : outcome A * istream * globals :=
  match read_npy_header v s g with
  | (Ok h, s1, g1) => let (o, s2) := L h s1 in (o, s2, g1)
  | (Throw x, s1, g1) => (Throw x, s1, g1)
  | (AssertFail, s1, g1) => (AssertFail, s1, g1)
  | (Undef u, s1, g1) => (Undef u, s1, g1)
  end.
(** include/npy/npy.h 433-449, 507-523: write<T> *)
Definition w_write_class (c : codec) (w : writer) (name : bytes) (x : saveable) : outcome writer :=
  if w_closed w then Throw RuntimeError
  else let* b := save_class x (w_endian w) in
       w_write_file c w (archive_name name) b.
(** include/npy/npy.h 567-570, 634-637: read<T> *)
Definition r_read_class {A} (v : env) (c : codec) (L : header_info -> istream -> outcome A * istream)
    (r : reader) (name : bytes) (g : globals) : outcome A * reader * globals :=
  match r_read_file v c r name with
  | (Ok b, r') => let '(o, _, g') := load_class v L (open_str b) g in (o, r', g')
  | (Throw e, r') => (Throw e, r', g)
  | (AssertFail, r') => (AssertFail, r', g)
  | (Undef u, r') => (Undef u, r', g)
  end.
(** src/dtype.cpp 84-580: read_values(input, ptr, n, info) as a user's class calls it;
    the fields used must have been set. *)
Definition read_values_of (v : env) (d : dtype) (n : Z) (h : header_info) (s : istream)
  : outcome (list elem) * istream :=
  match (let* e := (if raw_type d then Ok NATIVE else field (h_endian h)) in
         let* m := (if is_string d then field (h_maxlen h) else Ok 0) in Ok (e, m)) with
  | Ok (e, m) => let (l, s') := read_values v d e m n s in (Ok l, s')
  | Throw x => (Throw x, s)
  | AssertFail => (AssertFail, s)
  | Undef u => (Undef u, s)
  end.

(** ** examples/custom_tensors/custom.cpp *)
(** 9-13, 162-163: the matrix, coefficients in storage order; StorageOrder and T are template
    arguments: [col] and [d] below. *)
Record matrix := mk_matrix { mx_rows : Z; mx_cols : Z; mx_data : list elem }.
(** Eigen: where a dense matrix keeps coefficient (i, j). Not in /repo. *)
Definition place (col : bool) (rows cols i j : Z) : Z := if col then i + rows * j else i * cols + j.
(** Eigen: m(i, j). Not in /repo. *)
Definition coefficient (col : bool) (m : matrix) (i j : Z) : option elem :=
  znth (mx_data m) (place col (mx_rows m) (mx_cols m) i j).
(** Eigen: assignment between matrices of different storage order, coefficient by
    coefficient. Not in /repo. *)
Definition assigned (from to : bool) (m : matrix) : matrix :=
  let at_place k := let i := if to then k mod mx_rows m else k / mx_cols m in
                    let j := if to then k / mx_rows m else k mod mx_cols m in
                    match coefficient from m i j with Some x => x | None => Scalar 0 end in
  mk_matrix (mx_rows m) (mx_cols m)
    (map (fun n => at_place (Z.of_nat n)) (seq 0 (Z.to_nat (mx_rows m * mx_cols m)))).
(** custom.cpp 72-159: the methods save() calls; dtype() knows float and double *)
Definition eigen_saveable (v : env) (d : dtype) (col : bool) (m : matrix) : saveable :=
  mk_saveable 2
    (fun i => if i =? 0 then Ok (mx_rows m) else if i =? 1 then Ok (mx_cols m) else Throw InvalidArgument)
    (fun e => match d with FLOAT32 | FLOAT64 => to_dtype v d e | _ => Throw InvalidArgument end)
    col
    (fun e => Ok (write_values v d e (mx_data m))).
(** custom.cpp 30-68: load. Not checked: info.dtype. The matrix is not initialised
    (61: MatrixT result(rows, columns)); the model reads missing data as zero, like
    [read_values]. Sizes beyond the memory make Eigen throw std::bad_alloc. *)
Definition eigen_load (v : env) (d : dtype) (col : bool) (h : header_info) (s : istream)
  : outcome matrix * istream :=
  if len (h_shape h) >? 2 then (Throw InvalidArgument, s)
  else
    match h_shape h with
    | [] => (Undef OutOfBounds, s)
    | rows :: more =>
        let cols := match more with c :: _ => c | [] => 1 end in
        if rows * cols * item_size d >? mem v then (Throw AllocError, s)
        else
          match field (h_fortran h) with
          | Ok f =>
              let (o, s') := read_values_of v d (rows * cols) h s in
              (let* l := o in
               Ok (if Bool.eqb f col || (cols =? 1) then mk_matrix rows cols l
                   else assigned f col (mk_matrix rows cols l)), s')
          | Throw x => (Throw x, s)
          | AssertFail => (AssertFail, s)
          | Undef u => (Undef u, s)
          end
    end.
