(** npy::tensor<T>: include/npy/npy.h 686-1049. *)
From Coq Require Import String ZArith List Bool Lia.
From Verif Require Import Base Stream Dtype Values.
Import ListNotations.
Open Scope Z_scope.

(** 987-991: the members. [t_dtype] is get_dtype() of the element type
    (src/tensor.cpp 5-61), so it also stands for the template argument. *)
Record tensor := mk_tensor {
  t_shape : list Z;
  t_strides : list Z;
  t_fortran : bool;
  t_dtype : dtype;
  t_values : list elem
}.

(** 997-1004: get_size *)
Definition get_size (shape : list Z) : Z :=
  fold_left (fun size dim => u64 (size * dim)) shape 1.

(** 1013-1023: the two loops of get_ravel_strides, which fill the result from its
    end; the list is in filling order. *)
Fixpoint strides_loop (dims : list Z) (stride : Z) : list Z :=
  match dims with
  | [] => []
  | d :: t => stride :: strides_loop t (u64 (stride * d))
  end.

(** 1007-1027: get_ravel_strides *)
Definition get_ravel_strides (shape : list Z) (fortran : bool) : list Z :=
  rev (strides_loop (if fortran then shape else rev shape) 1).

(** A value-initialised element of type [d]. *)
Definition zero_elem (d : dtype) : elem :=
  if is_string d then WStr [] else if is_complex d then Cplx 0 0 else Scalar 0.

(** 710-714: tensor(shape, fortran_order). *)
Definition make_tensor (v : env) (d : dtype) (shape : list Z) (fortran : bool)
  : outcome tensor :=
  let n := get_size shape in
  if n * item_size d >? mem v then Throw AllocError
  else Ok (mk_tensor shape (get_ravel_strides shape fortran) fortran d
                     (zrepeat (zero_elem d) n)).

(** 938-951: ravel(index, shape), looping over the strides. Running off the end of
    the index (or shape) is undefined. *)
Fixpoint ravel_loop (index shape strides : list Z) (acc : Z) : outcome Z :=
  match strides with
  | [] => Ok acc
  | st :: strides' =>
      match index, shape with
      | i :: index', d :: shape' =>
          if i >=? d then Throw InvalidArgument
          else ravel_loop index' shape' strides' (u64 (acc + u64 (i * st)))
      | _, _ => Undef OutOfBounds
      end
  end.

(** 978-984: ravel(vector<size_t>) *)
Definition ravel (t : tensor) (index : list Z) : outcome Z :=
  if t_fortran t then ravel_loop (rev index) (rev (t_shape t)) (t_strides t) 0
  else ravel_loop index (t_shape t) (t_strides t) 0.

(** 956-973: ravel(vector<int32_t>) *)
Fixpoint abs_index (index shape : list Z) : list Z :=
  match index, shape with
  | i :: index', d :: shape' =>
      (if i <? 0 then u64 (d + i) else i) :: abs_index index' shape'
  | _, _ => []
  end.
(** include/npy/npy.h 956-973 *)
Definition ravel_signed (t : tensor) (index : list Z) : outcome Z :=
  if len index =? len (t_shape t) then ravel t (abs_index index (t_shape t))
  else Throw InvalidArgument.

(** m_values[i] *)
Definition value_at (t : tensor) (i : Z) : outcome elem :=
  match znth (t_values t) i with Some x => Ok x | None => Undef OutOfBounds end.

(** 822-824: get; 772-774, 788-790: operator()(Indices...). *)
Definition t_get (t : tensor) (index : list Z) : outcome elem :=
  let* i := ravel_signed t index in value_at t i.

(** 779-781, 794-796: operator()(vector<size_t>). *)
Definition t_at (t : tensor) (index : list Z) : outcome elem :=
  let* i := ravel t index in value_at t i.

(** 815-817: set *)
Definition t_set (t : tensor) (index : list Z) (x : elem) : outcome tensor :=
  let* i := ravel_signed t index in
  match znth (t_values t) i with
  | None => Undef OutOfBounds
  | Some _ => Ok (mk_tensor (t_shape t) (t_strides t) (t_fortran t) (t_dtype t)
                            (nth_update (t_values t) (Z.to_nat i) x))
  end.

(** 880: size; 889: shape(int); 895: ndim *)
Definition t_size (t : tensor) : Z := len (t_values t).
(** include/npy/npy.h 895 *)
Definition t_ndim (t : tensor) : Z := len (t_shape t).
(** include/npy/npy.h 889 *)
Definition t_dim (t : tensor) (i : Z) : outcome Z :=
  match znth (t_shape t) i with Some d => Ok d | None => Undef OutOfBounds end.

(** 843-849 and 853-859: copy_from (pointer+count with a source of at least that
    many elements, and vector); 863-869: move_from.  Result: what happened and the
    tensor afterwards. *)
Definition copy_from (t : tensor) (src : list elem) : outcome unit * tensor :=
  if len src =? t_size t then
    (Ok tt, mk_tensor (t_shape t) (t_strides t) (t_fortran t) (t_dtype t)
                      (src ++ skipn (length src) (t_values t)))
  else (Throw InvalidArgument, t).
(** include/npy/npy.h 843-859 *)
Definition copy_from_ptr (t : tensor) (src : list elem) (nitems : Z)
  : outcome unit * tensor :=
  if nitems =? t_size t then
    if len src <? nitems then (Undef OutOfBounds, t)
    else (Ok tt, mk_tensor (t_shape t) (t_strides t) (t_fortran t) (t_dtype t)
                           (ztake nitems src ++ zdrop nitems (t_values t)))
  else (Throw InvalidArgument, t).
(** include/npy/npy.h 863-869 *)
Definition move_from (t : tensor) (src : list elem) : outcome unit * tensor :=
  if len src =? t_size t then
    (Ok tt, mk_tensor (t_shape t) (t_strides t) (t_fortran t) (t_dtype t) src)
  else (Throw InvalidArgument, t).

(** 826-829 and, for wide strings, 1031-1049: dtype(endianness). *)
Definition tensor_dtype (v : env) (t : tensor) (e : endian) : outcome bytes :=
  if is_string (t_dtype t) then
    let e' := if endian_eqb e NATIVE then native_endian v else e in
    Ok ((if endian_eqb e' LITTLE then str "<U" else str ">U")
        ++ dec (max_length (t_values t)))
  else to_dtype v (t_dtype t) e.
