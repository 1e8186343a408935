(** A variant of load and peek: input streams over any std::streambuf, in any state, with any
    exceptions() mask.  Stream.v's streams are over a buffer that has all its bytes; Throwing.v adds
    exceptions to those. *)
From Coq Require Import String ZArith List Bool Lia.
From Verif Require Import Base Stream Dtype Values Header Tensor Npy.
Import ListNotations.
Open Scope Z_scope.

(** What a stream buffer is asked: [n] characters (sgetn) or the next one (sbumpc).
    Not in /repo: the C++ library. *)
Inductive request := Many (n : Z) | One.
(** What it does: it delivers these characters (perhaps fewer than it was asked for; any more are not
    looked at), or it has delivered these when it throws an exception of its own. Not in /repo: the caller's. *)
Inductive delivery := Gave (b : bytes) | Broke (b : bytes).
(** A stream buffer: what it does may depend on all it was asked before. Not in /repo: the caller's. *)
Definition source := list request -> request -> delivery.
(** The mask given to exceptions(). Not in /repo: the C++ library. *)
Record in_mask := mk_in_mask { i_bad : bool; i_fail : bool; i_eof : bool }.
(** An input stream: what its buffer has delivered and was asked, and rdstate(). Not in /repo: the C++ library. *)
Record instream := mk_instream {
  i_got : bytes;
  i_asked : list request;
  s_bad : bool;
  s_fail : bool;
  s_eof : bool
}.
(** good() *)
Definition i_good (s : instream) : bool := negb (s_bad s || s_fail s || s_eof s).
(** (rdstate() & exceptions()) != 0, on which setstate throws. *)
Definition i_fires (m : in_mask) (s : instream) : bool :=
  (i_bad m && s_bad s) || (i_fail m && s_fail s) || (i_eof m && s_eof s).
(** The exception that leaves a call: std::ios_base::failure, or the buffer's own. *)
Inductive leaving := IosFailure | BufferThrew.
(** Code that reads: it has its result, or an exception leaves it. *)
Inductive reading (A : Type) := Read (r : A) | Left (x : leaving).
Arguments Read {A}. Arguments Left {A}.
Definition Y (A : Type) := instream -> reading A * instream.
(** Sequencing of such code: an exception leaves at once. *)
Definition ybind {A B} (a : Y A) (f : A -> Y B) : Y B :=
  fun s => match a s with
           | (Read r, s') => f r s'
           | (Left x, s') => (Left x, s')
           end.
(** Code that does not touch the stream. *)
Definition yret {A} (r : A) : Y A := fun s => (Read r, s).
(** setstate at the end of a read that gives [r]. *)
Definition settle {A} (m : in_mask) (r : A) (s : instream) : reading A * instream :=
  (if i_fires m s then Left IosFailure else Read r, s).
(** A stream that is not good: the sentry sets failbit. *)
Definition refused {A} (m : in_mask) (r : A) (s : instream) : reading A * instream :=
  settle m r (mk_instream (i_got s) (i_asked s) (s_bad s) true (s_eof s)).

(** istream::read: the characters stored. *)
Definition yread (src : source) (m : in_mask) (n : Z) : Y bytes :=
  fun s =>
    if i_good s then
      match src (i_asked s) (Many n) with
      | Gave b => let short := len (ztake n b) <? n in
                  settle m (ztake n b) (mk_instream (i_got s ++ ztake n b) (i_asked s ++ [Many n]) false short short)
      | Broke b => (if i_bad m then Left BufferThrew else Read (ztake n b),
                    mk_instream (i_got s ++ ztake n b) (i_asked s ++ [Many n]) true false false)
      end
    else refused m [] s.
(** istream::get(): -1 at the end. When the buffer throws it sets badbit, and failbit as it has no character. *)
Definition yget (src : source) (m : in_mask) : Y Z :=
  fun s =>
    if i_good s then
      match src (i_asked s) One with
      | Gave (c :: _) => (Read c, mk_instream (i_got s ++ [c]) (i_asked s ++ [One]) false false false)
      | Gave [] => settle m (-1) (mk_instream (i_got s) (i_asked s ++ [One]) false true true)
      | Broke _ => let s' := mk_instream (i_got s) (i_asked s ++ [One]) true true false in
                   if i_bad m then (Left BufferThrew, s') else settle m (-1) s'
      end
    else refused m (-1) s.

(** [n] calls of GETC, as in the loops of src/dtype.cpp 137-580. *)
Fixpoint ygetc_n (src : source) (m : in_mask) (n : nat) : Y bytes :=
  match n with
  | O => yret []
  | S n' => ybind (yget src m) (fun c => ybind (ygetc_n src m n') (fun r =>
              yret ((if c =? -1 then 255 else c) :: r)))
  end.

(** The loops over the values of another byte order, src/dtype.cpp 137-513. *)
Fixpoint yswapped (src : source) (m : in_mask) (k n : nat) : Y bytes :=
  match n with
  | O => yret []
  | S n' => ybind (ygetc_n src m k) (fun b => ybind (yswapped src m k n') (fun r => yret (rev b ++ r)))
  end.

(** src/dtype.cpp 554-580: the inner loop for one wide string. *)
Fixpoint ywstr (src : source) (m : in_mask) (v : env) (e : endian) (j : nat) : Y (list Z) :=
  match j with
  | O => yret []
  | S j' => ybind (ygetc_n src m 4) (fun b =>
      let value := of_image v (if is_native v e then b else rev b) in
      ybind (ywstr src m v e j') (fun r => yret (if value =? 0 then r else value :: r)))
  end.
(** src/dtype.cpp 554-580: the outer loop. *)
Fixpoint ywstrs (src : source) (m : in_mask) (v : env) (e : endian) (j n : nat) : Y (list elem) :=
  match n with
  | O => yret []
  | S n' => ybind (ywstr src m v e j) (fun cs => ybind (ywstrs src m v e j n') (fun r => yret (WStr cs :: r)))
  end.

(** src/dtype.cpp 84-580: read_values; see [read_values] in Values.v. *)
Definition yvalues (src : source) (m : in_mask) (v : env) (d : dtype) (e : endian) (j n : Z) : Y (list elem) :=
  if is_string d then ywstrs src m v e (Z.to_nat j) (Z.to_nat n)
  else
    let k := item_size d in
    let cut buf := yret (map (elem_of_image v d) (chunks (Z.to_nat k) (Z.to_nat n) buf)) in
    if raw_type d || is_native v e then
      ybind (yread src m (n * k)) (fun got => cut (got ++ zrepeat 0 (n * k - len got)))
    else ybind (yswapped src m (Z.to_nat k) (Z.to_nat n)) cut.

(** include/npy/npy.h 297-318: read_npy_header up to the text of the dictionary. *)
Definition ydict (src : source) (m : in_mask) (v : env) : Y (outcome bytes) :=
  ybind (yread src m STATIC_HEADER_LENGTH) (fun got =>
  let h := cells 10 got in
  let text n : Y (outcome bytes) :=
    if n >? mem v then yret (Throw AllocError)
    else ybind (yread src m n) (fun d => yret (Ok (d ++ zrepeat 0 (n - len d)))) in
  let stop {A} (o : outcome A) : Y (outcome bytes) := yret (obind o (fun _ => Ok [])) in
  match (let* _ := (if dbg v then check_magic h 0 [147; 78; 85; 77; 80; 89] else Ok tt) in
         let* v1 := and_then (cell_is h 6 1) (cell_is h 7 0) in
         let* v2 := (if v1 then Ok false else and_then (cell_is h 6 2) (cell_is h 7 0)) in
         Ok (v1, v2)) with
  | Ok (v1, v2) =>
      if v1 then
        match (let* a := cell h 8 in let* b := cell h 9 in Ok (a + 256 * b)) with
        | Ok n => text n
        | o => stop o
        end
      else if v2 then
        ybind (yread src m 2) (fun ex =>
        let x := cells 2 ex in
        match (let* a := cell h 8 in let* b := cell h 9 in
               let* c := cell x 0 in let* d := cell x 1 in
               Ok (s32_to_size (a + 256 * b + 65536 * c + 16777216 * d))) with
        | Ok n => text n
        | o => stop o
        end)
      else text 0
  | o => stop o
  end).

(** What a call gives: an exception of the stream leaves it, or an outcome as in Npy.v. *)
Inductive reply (A : Type) := Escaped (x : leaving) | Reply (o : outcome A).
Arguments Escaped {A}. Arguments Reply {A}.

(** include/npy/npy.h 296-320, 367-369: peek(stream) and read_npy_header(stream).  The dictionary is
    parsed from a stream of libnpy's own, which keeps the default mask. *)
Definition peek_y (src : source) (m : in_mask) (v : env) (s : instream) (g : globals)
  : reply header_info * instream * globals :=
  match ydict src m v s with
  | (Left x, s1) => (Escaped x, s1, g)
  | (Read (Ok b), s1) => let (o, g') := parse_dictionary v b g in (Reply o, s1, g')
  | (Read (Throw e), s1) => (Reply (Throw e), s1, g)
  | (Read AssertFail, s1) => (Reply AssertFail, s1, g)
  | (Read (Undef u), s1) => (Reply (Undef u), s1, g)
  end.

(** include/npy/npy.h 744-754: tensor<T>::load(stream, info). *)
Definition tensor_load_y (src : source) (m : in_mask) (v : env) (d : dtype) (h : header_info) : Y (outcome tensor) :=
  match (let* f := field (h_fortran h) in
         let* t := make_tensor v d (h_shape h) f in
         let* d' := field (h_dtype h) in
         let* _ := (if dtype_eqb d' d then Ok tt else Throw RuntimeError) in
         let* e := (if raw_type d then Ok NATIVE else field (h_endian h)) in
         let* j := (if is_string d then field (h_maxlen h) else Ok 0) in
         Ok (t, e, j)) with
  | Ok (t, e, j) =>
      ybind (yvalues src m v d e j (t_size t)) (fun vals =>
      yret (Ok (mk_tensor (t_shape t) (t_strides t) (t_fortran t) (t_dtype t) vals)))
  | Throw x => yret (Throw x)
  | AssertFail => yret AssertFail
  | Undef u => yret (Undef u)
  end.

(** include/npy/npy.h 333-336: load(stream). *)
Definition load_y (src : source) (m : in_mask) (v : env) (d : dtype) (s : instream) (g : globals)
  : reply tensor * instream * globals :=
  match peek_y src m v s g with
  | (Escaped x, s1, g1) => (Escaped x, s1, g1)
  | (Reply (Ok h), s1, g1) =>
      match tensor_load_y src m v d h s1 with
      | (Left x, s2) => (Escaped x, s2, g1)
      | (Read o, s2) => (Reply o, s2, g1)
      end
  | (Reply (Throw x), s1, g1) => (Reply (Throw x), s1, g1)
  | (Reply AssertFail, s1, g1) => (Reply AssertFail, s1, g1)
  | (Reply (Undef u), s1, g1) => (Reply (Undef u), s1, g1)
  end.
