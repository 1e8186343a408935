(** The linear views of npy::tensor<T>: begin()/end() (include/npy/npy.h 799-810),
    values() (840), data() (872-875).  All four iterator functions and data() hand
    out positions in the member m_values; a position is its distance from the start. *)
From Coq Require Import String ZArith List Bool Lia.
From Verif Require Import Base Stream Dtype Values Tensor.
Import ListNotations.
Open Scope Z_scope.

(** include/npy/npy.h 799, 802-804: begin(); 872, 875: data() *)
Definition t_begin (t : tensor) : Z := 0.
(** include/npy/npy.h 807, 810: end() *)
Definition t_end (t : tensor) : Z := len (t_values t).
(** include/npy/npy.h 840: values() *)
Definition t_buffer (t : tensor) : list elem := t_values t.

(** [*(begin() + k)], [data()[k]], [values()[k]] as a value
    (include/npy/npy.h 799-810, 840, 872-875); outside the buffer it is undefined. *)
Definition t_peek (t : tensor) (k : Z) : outcome elem :=
  match znth (t_buffer t) (t_begin t + k) with Some x => Ok x | None => Undef OutOfBounds end.

(** [*(begin() + k) = x], [data()[k] = x] (include/npy/npy.h 799, 807, 872). *)
Definition t_poke (t : tensor) (k : Z) (x : elem) : outcome tensor :=
  match znth (t_buffer t) (t_begin t + k) with
  | Some _ => Ok (mk_tensor (t_shape t) (t_strides t) (t_fortran t) (t_dtype t)
                            (nth_update (t_values t) (Z.to_nat (t_begin t + k)) x))
  | None => Undef OutOfBounds
  end.

(** [t(index) = x] through the reference of operator()(vector<size_t>)
    (include/npy/npy.h 794-796). *)
Definition t_assign (t : tensor) (index : list Z) (x : elem) : outcome tensor :=
  let* i := ravel t index in t_poke t i x.

(** What [for (const T &x : t)] visits, from position [k] on: the loop compares with
    end() (include/npy/npy.h 802-804, 810).  [n] is fuel only. *)
Fixpoint t_walk (n : nat) (t : tensor) (k : Z) : outcome (list elem) :=
  if k =? t_end t then Ok []
  else match n with
       | O => Undef OutOfFuel
       | S n' => let* x := t_peek t k in let* r := t_walk n' t (k + 1) in Ok (x :: r)
       end.

(** [for (T &x : t) x = f(x);] from position [k] on (include/npy/npy.h 799, 807). *)
Fixpoint t_update (f : elem -> elem) (n : nat) (t : tensor) (k : Z) : outcome tensor :=
  if k =? t_end t then Ok t
  else match n with
       | O => Undef OutOfFuel
       | S n' => let* x := t_peek t k in let* t' := t_poke t k (f x) in t_update f n' t' (k + 1)
       end.

(** The two loops as written by a caller: from begin(), with enough fuel. *)
Definition visits (t : tensor) : outcome (list elem) :=
  t_walk (length (t_values t)) t (t_begin t).
(** include/npy/npy.h 799, 807 *)
Definition update_all (f : elem -> elem) (t : tensor) : outcome tensor :=
  t_update f (length (t_values t)) t (t_begin t).
