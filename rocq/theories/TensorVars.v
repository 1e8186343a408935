(** Tensor objects: construction, assignment and moves of npy::tensor<T> variables,
    include/npy/npy.h 717-730, 905-923. *)
From Coq Require Import String ZArith List Bool Lia.
From Verif Require Import Base Stream Dtype Values Header Tensor Npy.
Import ListNotations.
Open Scope Z_scope.

(** The tensor<T> objects of a program, by name. Not in /repo: the caller's variables. *)
Definition objects := nat -> tensor.
(** Helper: object [i] becomes [t]. *)
Definition put (m : objects) (i : nat) (t : tensor) : objects := fun k => if (k =? i)%nat then t else m k.

(** Helper: the member m_shape (include/npy/npy.h 987) is overwritten. *)
Definition with_shape (t : tensor) (x : list Z) := mk_tensor x (t_strides t) (t_fortran t) (t_dtype t) (t_values t).
(** Helper: the member m_ravel_strides (include/npy/npy.h 988) is overwritten. *)
Definition with_strides (t : tensor) (x : list Z) := mk_tensor (t_shape t) x (t_fortran t) (t_dtype t) (t_values t).
(** Helper: the member m_values (include/npy/npy.h 991) is overwritten. *)
Definition with_values (t : tensor) (x : list elem) := mk_tensor (t_shape t) (t_strides t) (t_fortran t) (t_dtype t) x.
(** Helper: the member m_fortran_order (include/npy/npy.h 989) is overwritten. *)
Definition with_fortran (t : tensor) (x : bool) := mk_tensor (t_shape t) (t_strides t) x (t_dtype t) (t_values t).
(** Helper: the member m_dtype (include/npy/npy.h 990) is overwritten. *)
Definition with_dtype (t : tensor) (x : dtype) := mk_tensor (t_shape t) (t_strides t) (t_fortran t) x (t_values t).

(** std::vector's move assignment (libstdc++: swap with the source, then the source
    with an empty temporary), for the member with getter [get] and setter [set];
    [i] = [j] is allowed and leaves the member empty. *)
Definition move_member {A} (get : tensor -> list A) (set : tensor -> list A -> tensor)
  (i j : nat) (m : objects) : objects :=
  let x := get (m i) in
  let y := get (m j) in
  let m1 := put m i (set (m i) y) in
  let m2 := put m1 j (set (m1 j) x) in
  put m2 j (set (m2 j) []).
(** std::vector's copy assignment. *)
Definition copy_member {A} (get : tensor -> list A) (set : tensor -> list A -> tensor)
  (i j : nat) (m : objects) : objects := put m i (set (m i) (get (m j))).

(** 905-912: operator=(const tensor&) on objects [i] = [j], member by member. *)
Definition copy_assign (i j : nat) (m : objects) : objects :=
  let m := copy_member t_shape with_shape i j m in
  let m := copy_member t_strides with_strides i j m in
  let m := put m i (with_fortran (m i) (t_fortran (m j))) in
  let m := put m i (with_dtype (m i) (t_dtype (m j))) in
  copy_member t_values with_values i j m.
(** 915-922: operator=(tensor&&). *)
Definition move_assign (i j : nat) (m : objects) : objects :=
  let m := move_member t_shape with_shape i j m in
  let m := move_member t_strides with_strides i j m in
  let m := put m i (with_fortran (m i) (t_fortran (m j))) in
  let m := put m i (with_dtype (m i) (t_dtype (m j))) in
  move_member t_values with_values i j m.
(** 717-720: the copy constructor makes object [i]. *)
Definition copy_construct (i j : nat) (m : objects) : objects :=
  let o := m j in put m i (mk_tensor (t_shape o) (t_strides o) (t_fortran o) (t_dtype o) (t_values o)).
(** 723-728: the move constructor makes object [i] (a new one) and empties the
    vectors of [j]. *)
Definition move_construct (i j : nat) (m : objects) : objects :=
  let o := m j in
  let m1 := put m j (mk_tensor [] [] (t_fortran o) (t_dtype o) []) in
  put m1 i (mk_tensor (t_shape o) (t_strides o) (t_fortran o) (t_dtype o) (t_values o)).
(** std::swap on objects [i] and [j] with [tmp] as its local. Not in /repo. *)
Definition std_swap (tmp i j : nat) (m : objects) : objects :=
  move_assign j tmp (move_assign i j (move_construct tmp i m)).

(** Steps of a program on its tensor<T> objects, T given by [d]. *)
Inductive action :=
| AMake (i : nat) (shape : list Z) (fortran : bool)   (* 703-714 *)
| ACopyMake (i j : nat) | AMoveMake (i j : nat)
| ACopy (i j : nat) | AMove (i j : nat)
| ASet (i : nat) (index : list Z) (x : elem)          (* 815-817 *)
| AFill (i : nat) (src : list elem).                  (* 853-859; a throw leaves the object *)
(** One step. *)
Definition act (v : env) (d : dtype) (a : action) (m : objects) : outcome objects :=
  match a with
  | AMake i shape f => let* t := make_tensor v d shape f in Ok (put m i t)
  | ACopyMake i j => Ok (copy_construct i j m)
  | AMoveMake i j => Ok (move_construct i j m)
  | ACopy i j => Ok (copy_assign i j m)
  | AMove i j => Ok (move_assign i j m)
  | ASet i index x => let* t := t_set (m i) index x in Ok (put m i t)
  | AFill i src => let (o, t) := copy_from (m i) src in let* _ := o in Ok (put m i t)
  end.
(** A program: steps in order; an exception is caught and the step has changed nothing. *)
Fixpoint acts (v : env) (d : dtype) (l : list action) (m : objects) : outcome objects :=
  match l with
  | [] => Ok m
  | a :: t => match act v d a m with
              | Ok m' => acts v d t m'
              | Throw _ => acts v d t m
              | AssertFail => AssertFail
              | Undef u => Undef u
              end
  end.
