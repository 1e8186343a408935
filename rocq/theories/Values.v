(** src/dtype.cpp 77-580: write_values / read_values.

    An element is a number (its bit pattern, read as unsigned) or a pair of
    numbers (complex) or a list of code units (wide string).  The memory image of
    an element depends on the host's byte order; the code moves memory images
    around byte by byte, so that is what is modelled. *)
From Coq Require Import ZArith List Bool Lia.
From Verif Require Import Base Stream Dtype.
Import ListNotations.
Open Scope Z_scope.

(** The C++ value types data_type_t names (include/npy/npy.h 63-92), by bit pattern. *)
Inductive elem :=
| Scalar (v : Z)           (* bit pattern of an integer, float or boolean *)
| Cplx (re im : Z)         (* bit patterns of the two parts *)
| WStr (cs : list Z).      (* wchar_t code units, as 32-bit patterns *)

(** sizeof(T); for the components of complex types see [part_size]. *)
Definition item_size (d : dtype) : Z :=
  match d with
  | INT8 | UINT8 | BOOL => 1
  | INT16 | UINT16 => 2
  | INT32 | UINT32 | FLOAT32 => 4
  | INT64 | UINT64 | FLOAT64 | COMPLEX64 => 8
  | COMPLEX128 => 16
  | UNICODE_STRING => 32     (* sizeof(std::wstring); only for allocation *)
  end.

(** include/npy/npy.h 84-87 *)
Definition is_complex (d : dtype) : bool :=
  match d with COMPLEX64 | COMPLEX128 => true | _ => false end.
(** include/npy/npy.h 90-91 *)
Definition is_string (d : dtype) : bool :=
  match d with UNICODE_STRING => true | _ => false end.

(** Object representation of an unsigned k-byte number. *)
Fixpoint le_bytes (k : nat) (v : Z) : bytes :=
  match k with
  | O => []
  | S k' => v mod 256 :: le_bytes k' (v / 256)
  end.
(** Its inverse. *)
Fixpoint le_value (l : bytes) : Z :=
  match l with
  | [] => 0
  | b :: t => b + 256 * le_value t
  end.
(** Object representation on this host; used by the write(reinterpret_cast<char*>..) calls of src/dtype.cpp 77-547. *)
Definition image (v : env) (k : nat) (x : Z) : bytes :=
  if host_big v then rev (le_bytes k x) else le_bytes k x.
(** Its inverse. *)
Definition of_image (v : env) (l : bytes) : Z :=
  le_value (if host_big v then rev l else l).

(** Memory image of an element (std::complex<T> is an array of two T). *)
Definition elem_image (v : env) (d : dtype) (e : elem) : bytes :=
  match e with
  | Scalar x => image v (Z.to_nat (item_size d)) x
  | Cplx re im => image v (Z.to_nat (item_size d / 2)) re
                  ++ image v (Z.to_nat (item_size d / 2)) im
  | WStr _ => []
  end.
(** Its inverse. *)
Definition elem_of_image (v : env) (d : dtype) (l : bytes) : elem :=
  if is_complex d then
    Cplx (of_image v (ztake (item_size d / 2) l)) (of_image v (zdrop (item_size d / 2) l))
  else Scalar (of_image v l).

(** include/npy/core.h, src/dtype.cpp: endianness == NATIVE || endianness == native_endian() *)
Definition is_native (v : env) (e : endian) : bool :=
  endian_eqb e NATIVE || endian_eqb e (native_endian v).

(** Whether the specialisation for [d] ever looks at the endianness: the one-byte
    types (77-117) do not. *)
Definition raw_type (d : dtype) : bool := item_size d =? 1.

(** src/dtype.cpp 514-547: write_values<std::wstring> *)
Definition max_length (es : list elem) : Z :=
  fold_left (fun m e => match e with
                        | WStr cs => if len cs >? m then len cs else m
                        | _ => m
                        end) es 0.
(** src/dtype.cpp 514-547: one wchar_t as four bytes *)
Definition unit_bytes (v : env) (e : endian) (c : Z) : bytes :=
  if is_native v e then image v 4 c else rev (image v 4 c).
(** src/dtype.cpp 514-547: one string, padded with zeros to max_element_length *)
Definition write_wstr (v : env) (e : endian) (m : Z) (x : elem) : bytes :=
  match x with
  | WStr cs => flat_map (unit_bytes v e) cs ++ zrepeat 0 (4 * (m - len cs))
  | _ => []
  end.

(** src/dtype.cpp 77-547: write_values, the bytes appended to the stream. *)
Definition write_values (v : env) (d : dtype) (e : endian) (es : list elem) : bytes :=
  if is_string d then flat_map (write_wstr v e (max_length es)) es
  else if raw_type d || is_native v e then flat_map (elem_image v d) es
  else flat_map (fun x => rev (elem_image v d x)) es.

(** [n] calls of GETC (static_cast<char>(get())): EOF gives 0xFF. *)
Fixpoint getc_n (n : nat) (s : istream) : bytes * istream :=
  match n with
  | O => ([], s)
  | S n' => let (c, s1) := sget s in
            let (r, s2) := getc_n n' s1 in
            ((if c =? -1 then 255 else c) :: r, s2)
  end.

(** The non-native loops of read_values (e.g. 137-147): element by element, bytes
    stored in reverse. *)
Fixpoint read_swapped (k : nat) (n : nat) (s : istream) : bytes * istream :=
  match n with
  | O => ([], s)
  | S n' => let (b, s1) := getc_n k s in
            let (r, s2) := read_swapped k n' s1 in
            (rev b ++ r, s2)
  end.

(** Helper of the bulk reads: cut the buffer into elements. *)
Fixpoint chunks (k : nat) (n : nat) (l : bytes) : list bytes :=
  match n with
  | O => []
  | S n' => firstn k l :: chunks k n' (skipn k l)
  end.

(** src/dtype.cpp 551-580: read_values<std::wstring>; [j] inner iterations. *)
Fixpoint read_wstr (v : env) (e : endian) (j : nat) (s : istream)
  : list Z * istream :=
  match j with
  | O => ([], s)
  | S j' =>
      let (b, s1) := getc_n 4 s in
      let value := of_image v (if is_native v e then b else rev b) in
      let (r, s2) := read_wstr v e j' s1 in
      (if value =? 0 then r else value :: r, s2)
  end.
(** src/dtype.cpp 551-580: the outer loop *)
Fixpoint read_wstrs (v : env) (e : endian) (m : nat) (n : nat) (s : istream)
  : list elem * istream :=
  match n with
  | O => ([], s)
  | S n' => let (cs, s1) := read_wstr v e m s in
            let (r, s2) := read_wstrs v e m n' s1 in
            (WStr cs :: r, s2)
  end.

(** src/dtype.cpp 84-580: read_values into a value-initialised buffer of [n]
    elements (tensor::load, include/npy/npy.h 744-754, always passes one).
    [m] is info.max_element_length. *)
Definition read_values (v : env) (d : dtype) (e : endian) (m : Z) (n : Z)
    (s : istream) : list elem * istream :=
  if is_string d then read_wstrs v e (Z.to_nat m) (Z.to_nat n) s
  else
    let k := item_size d in
    if raw_type d || is_native v e then
      let (got, s') := sread (n * k) s in
      let buf := got ++ zrepeat 0 (n * k - len got) in
      (map (elem_of_image v d) (chunks (Z.to_nat k) (Z.to_nat n) buf), s')
    else
      let (buf, s') := read_swapped (Z.to_nat k) (Z.to_nat n) s in
      (map (elem_of_image v d) (chunks (Z.to_nat k) (Z.to_nat n) buf), s').

(** include/npy/npy.h 99-126: npy::boolean from an integer. *)
Definition boolean_ctor (x : Z) : Z := if x >? 0 then 1 else 0.        (* 110 *)
Definition boolean_assign (x : Z) : Z := if x =? 0 then 0 else 1.      (* 122-125 *)
Definition boolean_of_bool (b : bool) : Z := if b then 1 else 0.        (* 114 *)
Definition boolean_to_bool (x : Z) : bool := negb (x =? 0).             (* 117 *)
