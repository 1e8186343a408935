(** Base layer: machine numbers as [Z], byte buffers as [list Z], outcomes of
    C++ code, and a state monad.  Nothing here models a particular libnpy
    function; the other files do. *)
From Coq Require Import String Ascii ZArith List Bool Lia.
Import ListNotations.
Open Scope Z_scope.

(** ** Bytes *)
Definition bytes := list Z.
Definition is_byte (b : Z) : Prop := 0 <= b < 256.
Definition bytes_ok (l : bytes) : Prop := Forall is_byte l.

(** A string literal as its byte values. *)
Definition str (s : string) : bytes :=
  map (fun c => Z.of_N (N_of_ascii c)) (list_ascii_of_string s).

Definition len {A} (l : list A) : Z := Z.of_nat (length l).

(** Prefix/suffix of a list by a [Z] count; structural on the list, so a huge
    count costs nothing. *)
Fixpoint ztake {A} (n : Z) (l : list A) : list A :=
  match l with
  | [] => []
  | x :: t => if n <=? 0 then [] else x :: ztake (n - 1) t
  end.

Fixpoint zdrop {A} (n : Z) (l : list A) : list A :=
  match l with
  | [] => []
  | x :: t => if n <=? 0 then l else zdrop (n - 1) t
  end.

(** List access by [Z] index. *)
Definition znth {A} (l : list A) (i : Z) : option A :=
  if i <? 0 then None else nth_error l (Z.to_nat i).

Fixpoint nth_update {A} (l : list A) (n : nat) (x : A) : list A :=
  match l, n with
  | [], _ => []
  | _ :: t, O => x :: t
  | y :: t, S n' => y :: nth_update t n' x
  end.

Definition zrepeat {A} (x : A) (n : Z) : list A := repeat x (Z.to_nat n).

Fixpoint beq (a b : bytes) : bool :=
  match a, b with
  | [], [] => true
  | x :: a', y :: b' => (x =? y) && beq a' b'
  | _, _ => false
  end.

(** ** Unsigned wrap-around *)
Definition u8 (z : Z) : Z := z mod 256.
Definition u16 (z : Z) : Z := z mod 65536.
Definition u32 (z : Z) : Z := z mod 4294967296.
Definition u64 (z : Z) : Z := z mod 18446744073709551616.
Definition max64 : Z := 18446744073709551615.

(** ** Outcomes *)
Inductive exn :=
| RuntimeError   (* std::runtime_error *)
| InvalidArgument (* std::invalid_argument *)
| OutOfRange      (* std::out_of_range *)
| AllocError.     (* std::bad_alloc / std::length_error *)

Inductive ub :=
| UninitRead      (* an indeterminate value was used *)
| OutOfBounds     (* an element outside a vector / past an iterator range *)
| NoReturn        (* flowing off the end of a value-returning function *)
| BadShift        (* a shift count of 64 or more, or a bit count that wraps round *)
| OutOfFuel.      (* not C++: a model loop ran out of fuel; proved unreachable *)

Inductive outcome (A : Type) :=
| Ok (a : A)
| Throw (e : exn)
| AssertFail
| Undef (u : ub).
Arguments Ok {A}. Arguments Throw {A}. Arguments AssertFail {A}. Arguments Undef {A}.

Definition obind {A B} (o : outcome A) (f : A -> outcome B) : outcome B :=
  match o with
  | Ok a => f a
  | Throw e => Throw e
  | AssertFail => AssertFail
  | Undef u => Undef u
  end.

(** ** State monad over outcomes; the state survives exceptions. *)
Definition M (S A : Type) := S -> outcome A * S.

Definition ret {S A} (a : A) : M S A := fun s => (Ok a, s).
Definition bind {S A B} (m : M S A) (f : A -> M S B) : M S B :=
  fun s => match m s with
           | (Ok a, s') => f a s'
           | (Throw e, s') => (Throw e, s')
           | (AssertFail, s') => (AssertFail, s')
           | (Undef u, s') => (Undef u, s')
           end.
Definition lift {S A} (o : outcome A) : M S A := fun s => (o, s).

Declare Scope monad_scope.
Delimit Scope monad_scope with monad.
Notation "x <- m ;; k" := (bind m (fun x => k))
  (at level 61, m at next level, right associativity) : monad_scope.
Notation "m ;;; k" := (bind m (fun _ => k))
  (at level 61, right associativity) : monad_scope.
Notation "'let*' x := o 'in' k" := (obind o (fun x => k))
  (at level 200, x pattern, o at level 100, k at level 200).

(** ** Environment of a run *)
Inductive endian := NATIVE | BIG | LITTLE.   (* include/npy/npy.h 41-49 *)

Definition endian_eqb (a b : endian) : bool :=
  match a, b with
  | NATIVE, NATIVE | BIG, BIG | LITTLE, LITTLE => true
  | _, _ => false
  end.

Record env := mk_env {
  host_big : bool;   (* byte order of the machine *)
  dbg : bool;        (* true: asserts are compiled in; false: NDEBUG *)
  mem : Z            (* largest allocation, in bytes, that succeeds *)
}.

(** include/npy/npy.h 52-59: native_endian *)
Definition native_endian (v : env) : endian := if host_big v then BIG else LITTLE.

(** Decimal text of a non-negative number, as operator<< and std::to_string
    print it. *)
Fixpoint dec_aux (fuel : nat) (z : Z) (acc : bytes) : bytes :=
  match fuel with
  | O => acc
  | S f => if z <? 10 then (48 + z) :: acc
           else dec_aux f (z / 10) ((48 + z mod 10) :: acc)
  end.
Definition dec (z : Z) : bytes := dec_aux (S (Z.to_nat (Z.log2 z))) z [].
