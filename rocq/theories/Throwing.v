(** A variant of load and peek: the program has switched exceptions on for its own
    input stream with std::ios::exceptions(...).  libnpy never does this itself (nor for the
    streams it opens by path or keeps inside an archive reader), but a caller may hand such a
    stream to load(std::istream&) and peek(std::istream&). *)
From Coq Require Import String ZArith List Bool Lia.
From Verif Require Import Base Stream Dtype Values Header Tensor Npy.
Import ListNotations.
Open Scope Z_scope.

(** The mask given to exceptions(): eofbit and failbit.  badbit is not modelled, as no stream here
    sets it. Not in /repo: the C++ library. *)
Record mask := mk_mask { on_eof : bool; on_fail : bool }.
(** A stream as it is by default: goodbit. Not in /repo: the C++ library. *)
Definition no_mask : mask := mk_mask false false.

(** basic_ios::clear / setstate throw std::ios_base::failure if (rdstate() & exceptions()) != 0.
    Every read below that changes the state ends with setstate, and one that does not leaves a good
    state behind, so asking after each read is the same. Not in /repo: the C++ library. *)
Definition fires (m : mask) (s : istream) : bool := (on_eof m && eofb s) || (on_fail m && failb s).

(** What a call gives: std::ios_base::failure escapes, or an outcome as without exceptions. *)
Inductive answer (A : Type) := Failure | Answer (o : outcome A).
Arguments Failure {A}. Arguments Answer {A}.

(** Code that reads from such a stream: [None] is std::ios_base::failure. *)
Definition X (A : Type) := istream -> option A * istream.
(** Sequencing of such code: a failure leaves at once. *)
Definition xbind {A B} (a : X A) (f : A -> X B) : X B :=
  fun s => match a s with
           | (Some r, s') => f r s'
           | (None, s') => (None, s')
           end.
(** Code that does not touch the stream. *)
Definition xret {A} (r : A) : X A := fun s => (Some r, s).

(** istream::read as called at include/npy/npy.h 298, 312, 318 and in src/dtype.cpp 84-580. *)
Definition xread (m : mask) (n : Z) : X bytes :=
  fun s => let (b, s') := sread n s in if fires m s' then (None, s') else (Some b, s').

(** GETC (src/dtype.cpp 10 and its uses): istream::get(). *)
Definition xget (m : mask) : X Z :=
  fun s => let (c, s') := sget s in if fires m s' then (None, s') else (Some c, s').

(** [n] calls of GETC, as in the loops of src/dtype.cpp 137-580. *)
Fixpoint xgetc_n (m : mask) (n : nat) : X bytes :=
  match n with
  | O => xret []
  | S n' => xbind (xget m) (fun c => xbind (xgetc_n m n') (fun r =>
              xret ((if c =? -1 then 255 else c) :: r)))
  end.

(** The loops over the values of another byte order, src/dtype.cpp 137-513. *)
Fixpoint xswapped (m : mask) (k n : nat) : X bytes :=
  match n with
  | O => xret []
  | S n' => xbind (xgetc_n m k) (fun b => xbind (xswapped m k n') (fun r => xret (rev b ++ r)))
  end.

(** src/dtype.cpp 554-580: the inner loop for one wide string. *)
Fixpoint xwstr (m : mask) (v : env) (e : endian) (j : nat) : X (list Z) :=
  match j with
  | O => xret []
  | S j' => xbind (xgetc_n m 4) (fun b =>
      let value := of_image v (if is_native v e then b else rev b) in
      xbind (xwstr m v e j') (fun r => xret (if value =? 0 then r else value :: r)))
  end.
(** src/dtype.cpp 554-580: the outer loop. *)
Fixpoint xwstrs (m : mask) (v : env) (e : endian) (j n : nat) : X (list elem) :=
  match n with
  | O => xret []
  | S n' => xbind (xwstr m v e j) (fun cs => xbind (xwstrs m v e j n') (fun r => xret (WStr cs :: r)))
  end.

(** src/dtype.cpp 84-580: read_values; see [read_values] in Values.v. *)
Definition xvalues (m : mask) (v : env) (d : dtype) (e : endian) (j n : Z) : X (list elem) :=
  if is_string d then xwstrs m v e (Z.to_nat j) (Z.to_nat n)
  else
    let k := item_size d in
    let cut buf := xret (map (elem_of_image v d) (chunks (Z.to_nat k) (Z.to_nat n) buf)) in
    if raw_type d || is_native v e then
      xbind (xread m (n * k)) (fun got => cut (got ++ zrepeat 0 (n * k - len got)))
    else xbind (xswapped m (Z.to_nat k) (Z.to_nat n)) cut.

(** include/npy/npy.h 297-318: read_npy_header up to the text of the dictionary. *)
Definition xdict (m : mask) (v : env) : X (outcome bytes) :=
  xbind (xread m STATIC_HEADER_LENGTH) (fun got =>
  let h := cells 10 got in
  let text n : X (outcome bytes) :=
    if n >? mem v then xret (Throw AllocError)
    else xbind (xread m n) (fun d => xret (Ok (d ++ zrepeat 0 (n - len d)))) in
  let stop {A} (o : outcome A) : X (outcome bytes) := xret (obind o (fun _ => Ok [])) in
  match (let* _ := (if dbg v then check_magic h 0 [147; 78; 85; 77; 80; 89] else Ok tt) in
         let* v1 := and_then (cell_is h 6 1) (cell_is h 7 0) in
         let* v2 := (if v1 then Ok false else and_then (cell_is h 6 2) (cell_is h 7 0)) in
         Ok (v1, v2)) with
  | Ok (v1, v2) =>
      if v1 then
        match (let* a := cell h 8 in let* b := cell h 9 in Ok (a + 256 * b)) with
        | Ok n => text n
        | o => stop o
        end
      else if v2 then
        xbind (xread m 2) (fun ex =>
        let x := cells 2 ex in
        match (let* a := cell h 8 in let* b := cell h 9 in
               let* c := cell x 0 in let* d := cell x 1 in
               Ok (s32_to_size (a + 256 * b + 65536 * c + 16777216 * d))) with
        | Ok n => text n
        | o => stop o
        end)
      else text 0
  | o => stop o
  end).

(** include/npy/npy.h 296-320, 367-369: peek(stream) and read_npy_header(stream).  The dictionary is
    parsed from a stream of libnpy's own, which keeps the default mask. *)
Definition peek_x (m : mask) (v : env) (s : istream) (g : globals)
  : answer header_info * istream * globals :=
  match xdict m v s with
  | (None, s1) => (Failure, s1, g)
  | (Some (Ok b), s1) => let (o, g') := parse_dictionary v b g in (Answer o, s1, g')
  | (Some (Throw e), s1) => (Answer (Throw e), s1, g)
  | (Some AssertFail, s1) => (Answer AssertFail, s1, g)
  | (Some (Undef u), s1) => (Answer (Undef u), s1, g)
  end.

(** include/npy/npy.h 744-754: tensor<T>::load(stream, info). *)
Definition tensor_load_x (m : mask) (v : env) (d : dtype) (h : header_info) : X (outcome tensor) :=
  match (let* f := field (h_fortran h) in
         let* t := make_tensor v d (h_shape h) f in
         let* d' := field (h_dtype h) in
         let* _ := (if dtype_eqb d' d then Ok tt else Throw RuntimeError) in
         let* e := (if raw_type d then Ok NATIVE else field (h_endian h)) in
         let* j := (if is_string d then field (h_maxlen h) else Ok 0) in
         Ok (t, e, j)) with
  | Ok (t, e, j) =>
      xbind (xvalues m v d e j (t_size t)) (fun vals =>
      xret (Ok (mk_tensor (t_shape t) (t_strides t) (t_fortran t) (t_dtype t) vals)))
  | Throw x => xret (Throw x)
  | AssertFail => xret AssertFail
  | Undef u => xret (Undef u)
  end.

(** include/npy/npy.h 333-336: load(stream). *)
Definition load_x (m : mask) (v : env) (d : dtype) (s : istream) (g : globals)
  : answer tensor * istream * globals :=
  match peek_x m v s g with
  | (Failure, s1, g1) => (Failure, s1, g1)
  | (Answer (Ok h), s1, g1) =>
      match tensor_load_x m v d h s1 with
      | (None, s2) => (Failure, s2, g1)
      | (Some o, s2) => (Answer o, s2, g1)
      end
  | (Answer (Throw x), s1, g1) => (Answer (Throw x), s1, g1)
  | (Answer AssertFail, s1, g1) => (Answer AssertFail, s1, g1)
  | (Answer (Undef u), s1, g1) => (Answer (Undef u), s1, g1)
  end.
