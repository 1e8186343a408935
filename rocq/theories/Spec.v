(** Independent specifications used in the statements of the properties.  Nothing
    here refers to how libnpy computes; only to the data types of the model
    ([dtype], [elem], [endian], [tensor], [env]) and to mathematics. *)
From Coq Require Import String ZArith List Bool Lia.
From Verif Require Import Base Dtype Values Tensor.
Import ListNotations.
Open Scope Z_scope.

(** ** Standard encoding of array elements *)

(** Bytes per number: per part for complex, per code point for strings. *)
Definition width (d : dtype) : nat :=
  match d with
  | INT8 | UINT8 | BOOL => 1
  | INT16 | UINT16 => 2
  | INT32 | UINT32 | FLOAT32 | COMPLEX64 | UNICODE_STRING => 4
  | INT64 | UINT64 | FLOAT64 | COMPLEX128 => 8
  end.

(** Base-256 digits of [x], least significant first: digit [i] is
    [x / 256^i mod 256]. *)
Definition digits256 (k : nat) (x : Z) : bytes :=
  map (fun i => (x / 256 ^ Z.of_nat i) mod 256) (seq 0 k).

(** A byte order is BIG (true) or LITTLE (false). *)
Definition ordered (big : bool) (k : nat) (x : Z) : bytes :=
  if big then rev (digits256 k x) else digits256 k x.

(** Which order a requested endianness means on a host. *)
Definition means_big (host_is_big : bool) (e : endian) : bool :=
  match e with NATIVE => host_is_big | BIG => true | LITTLE => false end.

(** Elements that a C++ object of type [d] can hold. *)
Definition fits (k : nat) (x : Z) : Prop := 0 <= x < 256 ^ Z.of_nat k.
Definition elem_ok (d : dtype) (e : elem) : Prop :=
  match e with
  | Scalar x => d <> COMPLEX64 /\ d <> COMPLEX128 /\ d <> UNICODE_STRING /\ fits (width d) x
  | Cplx re im => (d = COMPLEX64 \/ d = COMPLEX128) /\ fits (width d) re /\ fits (width d) im
  | WStr cs => d = UNICODE_STRING /\ Forall (fits 4) cs
  end.
Definition values_ok (d : dtype) (es : list elem) : Prop := Forall (elem_ok d) es.

(** The standard (numpy) encoding of one element in a given byte order. *)
Definition standard (big : bool) (d : dtype) (e : elem) : bytes :=
  match e with
  | Scalar x => ordered big (width d) x
  | Cplx re im => ordered big (width d) re ++ ordered big (width d) im
  | WStr cs => flat_map (ordered big 4) cs
  end.

(** Exchange of the parts of a complex number. *)
Definition swap_parts (e : elem) : elem :=
  match e with Cplx re im => Cplx im re | _ => e end.

(** Removal of NUL code points. *)
Definition drop_nuls (e : elem) : elem :=
  match e with WStr cs => WStr (filter (fun c => negb (c =? 0)) cs) | _ => e end.
Definition no_nuls (e : elem) : Prop :=
  match e with WStr cs => Forall (fun c => c <> 0) cs | _ => True end.

Definition is_complex_type (d : dtype) : Prop := d = COMPLEX64 \/ d = COMPLEX128.

(** ** Element counts and addressing *)
Fixpoint product (l : list Z) : Z :=
  match l with [] => 1 | d :: t => d * product t end.
Definition shape_ok (shape : list Z) : Prop := Forall (fun d => 0 <= d <= max64) shape.
(** Multi-indices with every component in range. *)
Definition in_range (index shape : list Z) : Prop :=
  Forall2 (fun i d => 0 <= i < d) index shape.
(** Row-major position: the last index moves fastest. *)
Fixpoint row_major (index shape : list Z) : Z :=
  match index, shape with
  | i :: index', _ :: shape' => i * product shape' + row_major index' shape'
  | _, _ => 0
  end.
(** Column-major position: the first index moves fastest. *)
Fixpoint col_major (index shape : list Z) : Z :=
  match index, shape with
  | i :: index', d :: shape' => i + d * col_major index' shape'
  | _, _ => 0
  end.
Definition position (fortran : bool) (index shape : list Z) : Z :=
  if fortran then col_major index shape else row_major index shape.

(** ** numpy dtype strings *)
Definition kind_char (d : dtype) : Z :=
  match d with
  | INT8 | INT16 | INT32 | INT64 => 105           (* i *)
  | UINT8 | UINT16 | UINT32 | UINT64 => 117       (* u *)
  | FLOAT32 | FLOAT64 => 102                      (* f *)
  | COMPLEX64 | COMPLEX128 => 99                  (* c *)
  | BOOL => 98                                    (* b *)
  | UNICODE_STRING => 85                          (* U *)
  end.
(** Bytes per element in a file; [n] is the code points per element of strings. *)
Definition file_item_size (d : dtype) : Z :=
  match d with
  | COMPLEX64 => 8 | COMPLEX128 => 16
  | _ => Z.of_nat (width d)
  end.
(** '<' little, '>' big, '|' not applicable; then kind; then size. *)
Definition numpy_descr (d : dtype) (big : bool) : bytes :=
  [if (width d =? 1)%nat then 124 else if big then 62 else 60; kind_char d]
  ++ dec (file_item_size d).
Definition recorded_order (d : dtype) (big : bool) : endian :=
  if (width d =? 1)%nat then NATIVE else if big then BIG else LITTLE.

(** Length of the longest string. *)
Fixpoint longest (es : list elem) : Z :=
  match es with
  | [] => 0
  | WStr cs :: t => Z.max (len cs) (longest t)
  | _ :: t => longest t
  end.

(** ** Header dictionaries as text *)

(** An integer in decimal, with a minus sign if negative. *)
Definition spell (z : Z) : bytes := if z <? 0 then 45 :: dec (- z) else dec z.
(** Python tuple contents: items separated by comma and space; a one-element tuple
    has a trailing comma. *)
Fixpoint join_comma (l : list bytes) : bytes :=
  match l with
  | [] => []
  | [x] => x
  | x :: t => x ++ str ", " ++ join_comma t
  end.
Definition tuple_body (l : list Z) : bytes :=
  join_comma (map spell l) ++ (if (length l =? 1)%nat then str "," else []).

(** One entry of the dictionary, with blank space in the places where the layout
    may vary. *)
Inductive field_value :=
| FDescr (code : bytes)      (* 'descr': '<f4' *)
| FOrder (fortran : bool)    (* 'fortran_order': True *)
| FShape (shape : list Z).   (* 'shape': (2, 3) *)
Record entry := mk_dict_entry {
  before_key : bytes; before_colon : bytes; after_colon : bytes; after_comma : bytes;
  value : field_value
}.
Definition key_text (f : field_value) : bytes :=
  match f with FDescr _ => str "descr" | FOrder _ => str "fortran_order" | FShape _ => str "shape" end.
Definition value_text (f : field_value) : bytes :=
  match f with
  | FDescr c => str "'" ++ c ++ str "'"
  | FOrder b => if b then str "True" else str "False"
  | FShape l => str "(" ++ tuple_body l ++ str ")"
  end.
Definition entry_text (e : entry) : bytes :=
  before_key e ++ str "'" ++ key_text (value e) ++ str "'" ++ before_colon e ++ str ":"
  ++ after_colon e ++ value_text (value e) ++ str "," ++ after_comma e.
Definition dict_text (es : list entry) (tail : bytes) : bytes :=
  str "{" ++ flat_map entry_text es ++ str "}" ++ tail.

Definition blank (w : bytes) : Prop := Forall (fun c => c = 32 \/ 9 <= c <= 13) w.
Definition layout_ok (e : entry) : Prop :=
  blank (before_key e) /\ blank (before_colon e) /\ blank (after_colon e) /\ blank (after_comma e).
(** Types and sizes a 'descr' string stands for: the numpy strings of the
    fixed-width types, and '<Un' / '>Un' for strings of n code points. *)
Inductive descr_denotes : bytes -> dtype -> endian -> Z -> Prop :=
| denotes_fixed d big : d <> UNICODE_STRING ->
    descr_denotes (numpy_descr d big) d (recorded_order d big) 0
| denotes_string (big : bool) n : 0 <= n <= 2147483647 ->
    descr_denotes ((if big then str ">U" else str "<U") ++ dec n)
                  UNICODE_STRING (if big then BIG else LITTLE) n.
Definition field_ok (f : field_value) : Prop :=
  match f with
  | FDescr c => exists d e n, descr_denotes c d e n
  | FOrder _ => True
  | FShape l => len (tuple_body l) < 65535
  end.

(** The dimensions read from the integers of a shape tuple: integers of absolute
    value below 2^64 count modulo 2^64, the first larger one ends the list. *)
Fixpoint read_dims (l : list Z) : list Z :=
  match l with
  | [] => []
  | z :: t => if Z.abs z <? 2 ^ 64 then (z mod 2 ^ 64) :: read_dims t else []
  end.

(** The text numpy and libnpy write. *)
Definition standard_entries (code : bytes) (fortran : bool) (shape : list Z) : list entry :=
  [ mk_dict_entry [] [] (str " ") (str " ") (FDescr code);
    mk_dict_entry [] [] (str " ") (str " ") (FOrder fortran);
    mk_dict_entry [] [] (str " ") (str " ") (FShape shape) ].
Definition python_dict (code : bytes) (fortran : bool) (shape : list Z) : bytes :=
  dict_text (standard_entries code fortran shape) [].

(** ** Signed indices, numpy style *)
Definition int32_index (index : list Z) : Prop := Forall (fun i => - 2 ^ 31 <= i < 2 ^ 31) index.
(** Valid: as many components as dimensions, each from -dim to dim-1. *)
Definition numpy_valid (index shape : list Z) : Prop :=
  Forall2 (fun i d => - d <= i < d) index shape.
(** The non-negative index meant: negative components count from the end. *)
Fixpoint normalised (index shape : list Z) : list Z :=
  match index, shape with
  | i :: index', d :: shape' => (if i <? 0 then i + d else i) :: normalised index' shape'
  | _, _ => []
  end.

(** ** Saved arrays *)
(** The 'descr' string of an array with these elements: strings record their
    longest length. *)
Definition array_descr (d : dtype) (big : bool) (es : list elem) : bytes :=
  match d with
  | UNICODE_STRING => (if big then str ">U" else str "<U") ++ dec (longest es)
  | _ => numpy_descr d big
  end.
(** Bytes one element takes in a file; strings are padded to the longest. *)
Definition array_item (d : dtype) (es : list elem) : Z :=
  match d with UNICODE_STRING => 4 * longest es | _ => file_item_size d end.

(** The header of [t], saved on the host of [v] with endianness [e], fits in the one
    length byte libnpy writes, and the string length fits an int. *)
Definition save_fits (v : env) (t : tensor) (e : endian) : Prop :=
  len (python_dict (array_descr (t_dtype t) (means_big (host_big v) e) (t_values t))
                   (t_fortran t) (t_shape t)) <= 245 /\
  longest (t_values t) <= 2147483647.
(** Reading [t] back fits in the memory of [v]. *)
Definition room (v : env) (t : tensor) : Prop :=
  246 <= mem v /\ t_size t * item_size (t_dtype t) <= mem v.
(** The parts of a complex number stay in place only if both hosts agree (C06). *)
Definition same_host_if_complex (v1 v2 : env) (t : tensor) : Prop :=
  is_complex_type (t_dtype t) -> host_big v1 = host_big v2.

(** ** CRC-32 *)
(** The polynomial x^32+x^26+x^23+x^22+x^16+x^12+x^11+x^10+x^8+x^7+x^5+x^4+x^2+x+1,
    bit i of this number being the coefficient of x^(31-i), as registers that shift
    right need it. *)
Definition reflect32 (p : Z) : Z :=
  fold_left (fun a i => 2 * a + (if Z.testbit p (Z.of_nat i) then 1 else 0)) (seq 0 32) 0.
Definition crc_poly : Z := reflect32 0x04C11DB7.
(** One message bit. *)
Definition crc_step (c : Z) (b : bool) : Z :=
  if xorb (Z.odd c) b then Z.lxor (c / 2) crc_poly else c / 2.
(** Message bits, least significant bit of each byte first. *)
Definition byte_bits (b : Z) : list bool := map (fun i => Z.testbit b (Z.of_nat i)) (seq 0 8).
Definition message_bits (l : bytes) : list bool := flat_map byte_bits l.
(** Register preset to ones, complemented at the end. *)
Definition crc32_standard (l : bytes) : Z :=
  Z.lxor (fold_left crc_step (message_bits l) 0xFFFFFFFF) 0xFFFFFFFF.

(** ** Archives *)
(** The last thing filed under a name. *)
Fixpoint last_filed {X} (items : list (bytes * X)) (k : bytes) : option X :=
  match items with
  | [] => None
  | (n, x) :: r => match last_filed r k with
                   | Some y => Some y
                   | None => if beq n k then Some x else None
                   end
  end.
(** Names inside an archive end in ".npy". *)
Definition npy_name (n : bytes) : bytes :=
  if beq (skipn (length n - 4) n) (str ".npy") then n else n ++ str ".npy".
(** What a reader should find under [n]: the last thing written under exactly that
    stored name, else the last under that name with ".npy" appended. *)
Definition resolve {X} (items : list (bytes * X)) (n : bytes) : option X :=
  let filed := map (fun p => (npy_name (fst p), snd p)) items in
  match last_filed filed n with
  | Some x => Some x
  | None => last_filed filed (n ++ str ".npy")
  end.
(** Lexicographic order of byte strings. *)
Definition lex_le (a b : bytes) : Prop :=
  (exists t, b = a ++ t) \/
  (exists p x y a' b', a = p ++ x :: a' /\ b = p ++ y :: b' /\ x < y).
(** ** The ZIP format (APPNOTE 4.3), without ZIP64, encryption, comments or extra
    fields: numbers are little-endian. *)
Definition le16 (x : Z) : bytes := digits256 2 x.
Definition le32 (x : Z) : bytes := digits256 4 x.
Record member := mk_member {
  m_name : bytes; m_compression : Z; m_crc : Z; m_data : bytes; m_size : Z
}.
Definition member_fields (m : member) : bytes :=
  le16 0                                  (* general purpose flags *)
  ++ le16 (m_compression m)
  ++ le16 0 ++ le16 0x0021                (* time 00:00, date 1980-01-01 *)
  ++ le32 (m_crc m) ++ le32 (len (m_data m)) ++ le32 (m_size m)
  ++ le16 (len (m_name m)) ++ le16 0.     (* name length, extra length *)
(** 4.3.7: local file header, then the data. *)
Definition local_part (m : member) : bytes :=
  le32 0x04034b50 ++ le16 20 ++ member_fields m ++ m_name m ++ m_data m.
(** 4.3.12: central directory header; version made by 2.0, comment length, disk,
    internal and external attributes. *)
Definition central_part (offset : Z) (m : member) : bytes :=
  le32 0x02014b50 ++ le16 20 ++ le16 20 ++ member_fields m
  ++ le16 0 ++ le16 0 ++ le16 0 ++ le32 0x01800000 ++ le32 offset ++ m_name m.
Fixpoint central_parts (offset : Z) (ms : list member) : bytes :=
  match ms with
  | [] => []
  | m :: r => central_part offset m ++ central_parts (offset + len (local_part m)) r
  end.
(** 4.3.16: end of central directory. *)
Definition end_part (count size offset : Z) : bytes :=
  le32 0x06054b50 ++ le16 0 ++ le16 0 ++ le16 count ++ le16 count ++ le32 size ++ le32 offset ++ le16 0.
Definition zip_archive (ms : list member) : bytes :=
  let locals := flat_map local_part ms in
  let directory := central_parts 0 ms in
  locals ++ directory ++ end_part (len ms) (len directory) (len locals).
