(** A variant of save(std::basic_ostream&, ..): output streams over any std::streambuf, in any
    state, with any exceptions() mask.  In Npy.v [save] gives the bytes appended to a stream that takes
    everything; here the writes are made one by one. *)
From Coq Require Import String ZArith List Bool Lia.
From Verif Require Import Base Dtype Values Header Tensor Npy.
Import ListNotations.
Open Scope Z_scope.

(** What a stream buffer does when asked to take some characters (sputn, sputc): it takes the first
    [n] and says how many it took, or takes [n] and throws an exception of its own.
    Not in /repo: the C++ library and the caller. *)
Inductive taking := Took (n : Z) | Threw (n : Z).
(** A stream buffer: what it does may depend on all it was asked before. Not in /repo: the caller's. *)
Definition sink := list bytes -> bytes -> taking.
(** The mask given to exceptions(). Not in /repo: the C++ library. *)
Record out_mask := mk_out_mask { x_bad : bool; x_fail : bool; x_eof : bool }.
(** An output stream: what its buffer has taken and was asked, and rdstate(). *)
Record ostream := mk_ostream {
  o_got : bytes;
  o_asked : list bytes;
  o_bad : bool;
  o_fail : bool;
  o_eof : bool
}.
(** good() *)
Definition o_good (s : ostream) : bool := negb (o_bad s || o_fail s || o_eof s).
(** How a call ends: it returns, std::ios_base::failure leaves it, or the buffer's exception does. *)
Inductive ending := Returned | Failed | Foreign.
(** (rdstate() & exceptions()) != 0, on which setstate throws. *)
Definition o_fires (m : out_mask) (s : ostream) : bool :=
  (x_bad m && o_bad s) || (x_fail m && o_fail s) || (x_eof m && o_eof s).

(** basic_ostream::write and put. When the stream is not good, the sentry may set failbit: whether it
    does when the stream is as it is, is left to the library [lib]. *)
Definition owrite (lib : ostream -> bool) (m : out_mask) (k : sink) (b : bytes) (s : ostream) : ending * ostream :=
  if o_good s then
    match k (o_asked s) b with
    | Took n =>
        let s' := mk_ostream (o_got s ++ ztake n b) (o_asked s ++ [b]) (negb (n =? len b)) false false in
        (if o_fires m s' then Failed else Returned, s')
    | Threw n =>
        (if x_bad m then Foreign else Returned, mk_ostream (o_got s ++ ztake n b) (o_asked s ++ [b]) true false false)
    end
  else if lib s then
    let s' := mk_ostream (o_got s) (o_asked s) (o_bad s) true (o_eof s) in
    (if o_fires m s' then Failed else Returned, s')
  else (Returned, s).
(** Writes in turn; an exception ends them. *)
Fixpoint owrites (lib : ostream -> bool) (m : out_mask) (k : sink) (l : list bytes) (s : ostream) : ending * ostream :=
  match l with
  | [] => (Returned, s)
  | b :: l' => match owrite lib m k b s with
               | (Returned, s') => owrites lib m k l' s'
               | r => r
               end
  end.

(** include/npy/npy.h 203-219: the three writes of write_npy_header. *)
Definition header_writes (dt : bytes) (fortran : bool) (shape : list Z) : list bytes :=
  let dict := dictionary dt fortran shape in
  let dict_length0 := len dict + 1 in
  let header_length0 := dict_length0 + STATIC_HEADER_LENGTH in
  let '(dict_length, ending) :=
    if header_length0 mod 64 =? 0 then (dict_length0, [10])
    else
      let header_length := (header_length0 / 64 + 1) * 64 in
      let dict_length := header_length - STATIC_HEADER_LENGTH in
      (dict_length, zrepeat 32 (dict_length - len dict - 1) ++ [10]) in
  [[147; 78; 85; 77; 80; 89; 1; 0; u8 dict_length; 0]; dict; ending].
(** Calls of put *)
Definition puts (b : bytes) : list bytes := map (fun c => [c]) b.
(** src/dtype.cpp 77-547: the writes of write_values: one of everything when the bytes are in order,
    else a put for each byte; wide strings (514-547) always by put. *)
Definition value_writes (v : env) (d : dtype) (e : endian) (es : list elem) : list bytes :=
  if is_string d then flat_map (fun x => puts (write_wstr v e (max_length es) x)) es
  else if raw_type d || is_native v e then [flat_map (elem_image v d) es]
  else flat_map (fun x => puts (rev (elem_image v d x))) es.
(** include/npy/npy.h 239-252, 764-766: save(stream, tensor, endianness). *)
Definition save_to (lib : ostream -> bool) (m : out_mask) (k : sink) (v : env) (t : tensor) (e : endian) (s : ostream)
  : outcome ending * ostream :=
  match (let* shape := dims_of t (length (t_shape t)) 0 in
         let* dt := tensor_dtype v t e in
         Ok (header_writes dt (t_fortran t) shape ++ value_writes v (t_dtype t) e (t_values t))) with
  | Ok l => let (r, s') := owrites lib m k l s in (Ok r, s')
  | Throw x => (Throw x, s)
  | AssertFail => (AssertFail, s)
  | Undef u => (Undef u, s)
  end.
