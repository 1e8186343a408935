(** src/dtype.cpp 12-65: dtype strings. *)
From Coq Require Import String ZArith List Bool Lia.
From Verif Require Import Base.
Import ListNotations.
Open Scope Z_scope.
Open Scope Z_scope.

(** include/npy/npy.h 63-92: data_type_t *)
Inductive dtype :=
| INT8 | UINT8 | INT16 | UINT16 | INT32 | UINT32 | INT64 | UINT64
| FLOAT32 | FLOAT64 | COMPLEX64 | COMPLEX128 | BOOL | UNICODE_STRING.

(** include/npy/npy.h 63-92: the enumerator's integer value. *)
Definition dtype_code (d : dtype) : Z :=
  match d with
  | INT8 => 0 | UINT8 => 1 | INT16 => 2 | UINT16 => 3 | INT32 => 4 | UINT32 => 5
  | INT64 => 6 | UINT64 => 7 | FLOAT32 => 8 | FLOAT64 => 9 | COMPLEX64 => 10
  | COMPLEX128 => 11 | BOOL => 12 | UNICODE_STRING => 13
  end.

(** include/npy/npy.h 63-92: == on the enumeration. *)
Definition dtype_eqb (a b : dtype) : bool := dtype_code a =? dtype_code b.

(** src/dtype.cpp 12-18: BIG_ENDIAN_DTYPES, LITTLE_ENDIAN_DTYPES, indexed by the
    enumerator value. *)
Definition BIG_ENDIAN_DTYPES : list bytes :=
  map str ["|i1"; "|u1"; ">i2"; ">u2"; ">i4"; ">u4"; ">i8";
           ">u8"; ">f4"; ">f8"; ">c8"; ">c16"; "|b1"]%string.
(** src/dtype.cpp 16-18 *)
Definition LITTLE_ENDIAN_DTYPES : list bytes :=
  map str ["|i1"; "|u1"; "<i2"; "<u2"; "<i4"; "<u4"; "<i8";
           "<u8"; "<f4"; "<f8"; "<c8"; "<c16"; "|b1"]%string.

(** src/dtype.cpp 20-43: DTYPE_MAP, a mutable std::map. Association list; the
    first binding of a key counts. *)
Definition dmap := list (bytes * (dtype * endian)).
(** src/dtype.cpp 20-43: the initial contents. *)
Definition DTYPE_MAP : dmap :=
  [ (str "|u1", (UINT8, NATIVE));
    (str "|i1", (INT8, NATIVE));
    (str "<u2", (UINT16, LITTLE));
    (str ">u2", (UINT16, BIG));
    (str "<i2", (INT16, LITTLE));
    (str ">i2", (INT16, BIG));
    (str "<u4", (UINT32, LITTLE));
    (str ">u4", (UINT32, BIG));
    (str "<i4", (INT32, LITTLE));
    (str ">i4", (INT32, BIG));
    (str "<u8", (UINT64, LITTLE));
    (str ">u8", (UINT64, BIG));
    (str "<i8", (INT64, LITTLE));
    (str ">i8", (INT64, BIG));
    (str "<f4", (FLOAT32, LITTLE));
    (str ">f4", (FLOAT32, BIG));
    (str "<f8", (FLOAT64, LITTLE));
    (str ">f8", (FLOAT64, BIG));
    (str "<c8", (COMPLEX64, LITTLE));
    (str ">c8", (COMPLEX64, BIG));
    (str "<c16", (COMPLEX128, LITTLE));
    (str ">c16", (COMPLEX128, BIG));
    (str "|b1", (BOOL, NATIVE)) ].

(** std::map::find, used by src/dtype.cpp 63-65. *)
Fixpoint dfind (m : dmap) (k : bytes) : option (dtype * endian) :=
  match m with
  | [] => None
  | (k', v) :: t => if beq k k' then Some v else dfind t k
  end.

(** src/dtype.cpp 47-61: to_dtype *)
Definition to_dtype (v : env) (d : dtype) (e : endian) : outcome bytes :=
  match d with
  | UNICODE_STRING => Throw InvalidArgument
  | _ =>
      let e' := if endian_eqb e NATIVE then native_endian v else e in
      let table := if endian_eqb e' BIG then BIG_ENDIAN_DTYPES
                   else LITTLE_ENDIAN_DTYPES in
      match znth table (dtype_code d) with
      | Some s => Ok s
      | None => Undef OutOfBounds
      end
  end.

(** src/dtype.cpp 63-65: from_dtype. std::map::operator[] inserts a
    value-initialised pair (INT8, NATIVE) when the key is absent. *)
Definition from_dtype (k : bytes) (m : dmap) : (dtype * endian) * dmap :=
  match dfind m k with
  | Some p => (p, m)
  | None => ((INT8, NATIVE), (k, (INT8, NATIVE)) :: m)
  end.
