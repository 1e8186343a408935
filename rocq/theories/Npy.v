(** npy::save, load, peek on streams: include/npy/npy.h 239-372, 744-766. *)
From Coq Require Import String ZArith List Bool Lia.
From Verif Require Import Base Stream Dtype Values Header Tensor.
Import ListNotations.
Open Scope Z_scope.

(** 245-247: the shape is read back one dimension at a time. *)
Fixpoint dims_of (t : tensor) (n : nat) (d : Z) : outcome (list Z) :=
  match n with
  | O => Ok []
  | S n' => let* x := t_dim t d in let* r := dims_of t n' (d + 1) in Ok (x :: r)
  end.

(** 239-252: save(stream, tensor, endianness); the bytes appended. *)
Definition save (v : env) (t : tensor) (e : endian) : outcome bytes :=
  let* shape := dims_of t (length (t_shape t)) 0 in
  let* dt := tensor_dtype v t e in
  Ok (write_npy_header dt (t_fortran t) shape
      ++ write_values v (t_dtype t) e (t_values t)).

(** Use of a header field. *)
Definition field {A} (o : option A) : outcome A :=
  match o with Some x => Ok x | None => Undef UninitRead end.

(** 744-754: tensor<T>::load(stream, info), with T given by [d]. *)
Definition tensor_load (v : env) (d : dtype) (h : header_info) (s : istream)
  : outcome tensor * istream :=
  match (let* f := field (h_fortran h) in
         let* t := make_tensor v d (h_shape h) f in
         let* d' := field (h_dtype h) in
         if dtype_eqb d' d then Ok t else Throw RuntimeError) with
  | Ok t =>
      let ready :=
        (* one-byte types never look at endianness; only strings at max length *)
        let* e := (if raw_type d then Ok NATIVE else field (h_endian h)) in
        let* m := (if is_string d then field (h_maxlen h) else Ok 0) in
        Ok (e, m) in
      match ready with
      | Ok (e, m) =>
          let (vals, s') := read_values v d e m (t_size t) s in
          (Ok (mk_tensor (t_shape t) (t_strides t) (t_fortran t) (t_dtype t) vals), s')
      | Throw x => (Throw x, s)
      | AssertFail => (AssertFail, s)
      | Undef u => (Undef u, s)
      end
  | Throw x => (Throw x, s)
  | AssertFail => (AssertFail, s)
  | Undef u => (Undef u, s)
  end.

(** 333-336: load(stream) *)
Definition load (v : env) (d : dtype) (s : istream) (g : globals)
  : outcome tensor * istream * globals :=
  match read_npy_header v s g with
  | (Ok h, s1, g1) => let (o, s2) := tensor_load v d h s1 in (o, s2, g1)
  | (Throw x, s1, g1) => (Throw x, s1, g1)
  | (AssertFail, s1, g1) => (AssertFail, s1, g1)
  | (Undef u, s1, g1) => (Undef u, s1, g1)
  end.

(** 367-369: peek(stream) *)
Definition peek (v : env) (s : istream) (g : globals)
  : outcome header_info * istream * globals := read_npy_header v s g.
