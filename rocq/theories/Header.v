(** NPY headers: include/npy/npy.h 145-220, 296-320 and src/npy.cpp. *)
From Coq Require Import String ZArith List Bool Lia.
From Verif Require Import Base Stream Dtype.
Import ListNotations.
Open Scope Z_scope.
Open Scope monad_scope.

(** include/npy/npy.h 145-171: header_info. [None] is an uninitialised field
    (the struct has no default member initialisers; src/npy.cpp 84 initialises
    none of them). *)
Record header_info := mk_header {
  h_dtype : option dtype;
  h_endian : option endian;
  h_fortran : option bool;
  h_shape : list Z;
  h_maxlen : option Z
}.
(** src/npy.cpp 84: the fields before the constructor's body *)
Definition header_uninit : header_info := mk_header None None None [] None.

(** ** Writing *)

Definition STATIC_HEADER_LENGTH : Z := 10.   (* include/npy/npy.h 37 *)

(** include/npy/npy.h 190-195: the dimension loop. *)
Fixpoint dims_text (shape : list Z) : bytes :=
  match shape with
  | [] => []
  | [d] => dec d
  | d :: t => dec d ++ str ", " ++ dims_text t
  end.

(** include/npy/npy.h 186-202: the dictionary text. *)
Definition dictionary (dt : bytes) (fortran : bool) (shape : list Z) : bytes :=
  str "{'descr': '" ++ dt
  ++ str "', 'fortran_order': " ++ (if fortran then str "True" else str "False")
  ++ str ", 'shape': ("
  ++ dims_text shape
  ++ (match shape with [_] => str "," | _ => [] end)
  ++ str "), }".

(** include/npy/npy.h 203-219: padding, preamble, output. *)
Definition write_npy_header (dt : bytes) (fortran : bool) (shape : list Z) : bytes :=
  let dict := dictionary dt fortran shape in
  let dict_length0 := len dict + 1 in
  let header_length0 := dict_length0 + STATIC_HEADER_LENGTH in
  let '(dict_length, ending) :=
    if header_length0 mod 64 =? 0 then (dict_length0, [10])
    else
      let header_length := (header_length0 / 64 + 1) * 64 in
      let dict_length := header_length - STATIC_HEADER_LENGTH in
      (dict_length, zrepeat 32 (dict_length - len dict - 1) ++ [10]) in
  [147; 78; 85; 77; 80; 89; 1; 0; u8 dict_length; 0] ++ dict ++ ending.

(** ** Reading *)

(** State of a parse: the stream over the dictionary, and the two globals. *)
Record pst := mk_pst {
  p_in : istream;
  p_buf : bytes;      (* src/npy.cpp 10-11: static char BUFFER[65536] *)
  p_map : dmap        (* src/dtype.cpp 20: DTYPE_MAP *)
}.
(** src/npy.cpp 10 *)
Definition BUFFER_SIZE : Z := 65536.

(** Helper: overwrite the front of BUFFER. *)
Definition blit (new old : bytes) : bytes := new ++ zdrop (len new) old.

(** Helper: a stream operation inside the parser. *)
Definition with_in {A} (f : istream -> A * istream) : M pst A :=
  fun p => let (a, s) := f (p_in p) in (Ok a, mk_pst s (p_buf p) (p_map p)).

(** istream::get *)
Definition p_get : M pst Z := with_in sget.
(** istream::peek *)
Definition p_peek : M pst Z := with_in speek.

(** src/npy.cpp 13-17: read(istream, char). On a failed get [actual] stays
    uninitialised, which only the assert looks at. *)
Definition p_char (v : env) (expected : Z) : M pst unit :=
  c <- p_get ;;
  if dbg v then
    if c =? -1 then lift (Undef UninitRead)
    else if c =? expected then ret tt else lift AssertFail
  else ret tt.

(** src/npy.cpp 19-23: read(istream, string): compares BUFFER, of which only the
    characters actually read were overwritten. *)
Definition p_lit (v : env) (expected : bytes) : M pst unit :=
  fun p =>
    let (got, s) := sread (len expected) (p_in p) in
    let buf := blit got (p_buf p) in
    ((if dbg v then
        if beq (ztake (len expected) buf) expected then Ok tt else AssertFail
      else Ok tt),
     mk_pst s buf (p_map p)).

(** src/npy.cpp 25-30: skip_whitespace. Each iteration consumes a character, so
    the length of the rest bounds the iterations. *)
Fixpoint skip_ws_loop (fuel : nat) (s : istream) : outcome unit * istream :=
  match fuel with
  | O => (Undef OutOfFuel, s)
  | S f =>
      let (c, s1) := speek s in
      if is_space c then let (_, s2) := sget s1 in skip_ws_loop f s2
      else (Ok tt, s1)
  end.
(** src/npy.cpp 25-30 *)
Definition skip_ws (s : istream) : outcome unit * istream :=
  skip_ws_loop (S (length (rest s))) s.
(** src/npy.cpp 25-30 *)
Definition p_skip_ws : M pst unit :=
  fun p => let (o, s) := skip_ws (p_in p) in (o, mk_pst s (p_buf p) (p_map p)).

(** src/npy.cpp 32-42: read_to. The token is what BUFFER holds after the get;
    get also stores a terminating NUL. The assert cannot fail. *)
Definition p_read_to (v : env) (delim : Z) : M pst bytes :=
  c <- p_peek ;;
  if c =? delim then ret []
  else fun p =>
    let (got, s) := sgetbuf BUFFER_SIZE delim (p_in p) in
    let buf := blit (got ++ [0]) (p_buf p) in
    ((if dbg v && negb (len got <? BUFFER_SIZE) then AssertFail
      else Ok (ztake (len got) buf)),
     mk_pst s buf (p_map p)).

(** src/npy.cpp 44-49: read_string *)
Definition p_string (v : env) : M pst bytes :=
  p_char v 39 ;;;
  t <- p_read_to v 39 ;;
  p_char v 39 ;;;
  ret t.

(** src/npy.cpp 51-61: read_bool *)
Definition p_bool (v : env) : M pst bool :=
  c <- p_peek ;;
  if c =? 84 then p_lit v (str "True") ;;; ret true
  else
    c2 <- p_peek ;;
    if c2 =? 70 then p_lit v (str "False") ;;; ret false
    else lift (Throw RuntimeError).

(** src/npy.cpp 71-77: the extraction loop of read_shape over the local stream
    [tuple]. read(tuple, ',') follows a successful peek of ',', so its assert
    holds. *)
Fixpoint shape_loop (fuel : nat) (s : istream) : outcome (list Z) :=
  match fuel with
  | O => Undef OutOfFuel
  | S f =>
      match sextract_u64 s with
      | (None, _) => Ok []
      | (Some d, s1) =>
          let (c, s2) := speek s1 in
          let* s3 := (if c =? 44 then
                        let (_, s') := sget s2 in
                        let (o, s'') := skip_ws s' in
                        let* _ := o in Ok s''
                      else Ok s2) in
          let* r := shape_loop f s3 in Ok (d :: r)
      end
  end.
(** src/npy.cpp 70-79: the tuple text, parsed through its own istringstream *)
Definition parse_shape (t : bytes) : outcome (list Z) :=
  shape_loop (S (length t)) (open_str t).

(** src/npy.cpp 63-80: read_shape *)
Definition p_shape (v : env) : M pst (list Z) :=
  p_char v 40 ;;;
  t <- p_read_to v 41 ;;
  p_char v 41 ;;;
  lift (parse_shape t).

(** std::stoi on the characters after the 'U' (strtol, base 10; spaces and a sign
    allowed; trailing characters ignored). *)
Definition stoi (l : bytes) : outcome Z :=
  let l1 := drop_spaces l in
  let '(neg, l2) := match l1 with
                    | c :: t => if c =? 45 then (true, t)
                                else if c =? 43 then (false, t) else (false, l1)
                    | [] => (false, [])
                    end in
  let (ds, _) := span_digits l2 in
  match ds with
  | [] => Throw InvalidArgument
  | _ => let x := if neg then - digits_value ds else digits_value ds in
         if (x <? -2147483648) || (x >? 2147483647) then Throw OutOfRange else Ok x
  end.

(** src/npy.cpp 93-104: the 'descr' value. s[s.size()] is '\0'; s[1] on an empty
    string is undefined. *)
Definition p_descr (code : bytes) : M pst (dtype * endian * Z) :=
  match code with
  | [] => lift (Undef OutOfBounds)
  | c0 :: t =>
      if (match t with c1 :: _ => c1 =? 85 | [] => false end) then
        n <- lift (stoi (zdrop 2 code)) ;;
        ret (UNICODE_STRING, if c0 =? 62 then BIG else LITTLE, u64 n)
      else fun p =>
        let '((d, e), m) := from_dtype code (p_map p) in
        (Ok (d, e, 0), mk_pst (p_in p) (p_buf p) m)
  end.

(** src/npy.cpp 87-114: one iteration of the dictionary loop. *)
Definition p_entry (v : env) (h : header_info) : M pst header_info :=
  p_skip_ws ;;;
  key <- p_string v ;;
  p_skip_ws ;;;
  p_char v 58 ;;;
  p_skip_ws ;;;
  h' <- (if beq key (str "descr") then
           code <- p_string v ;;
           x <- p_descr code ;;
           let '(d, e, n) := x in
           ret (mk_header (Some d) (Some e) (h_fortran h) (h_shape h) (Some n))
         else if beq key (str "fortran_order") then
           b <- p_bool v ;;
           ret (mk_header (h_dtype h) (h_endian h) (Some b) (h_shape h) (h_maxlen h))
         else if beq key (str "shape") then
           sh <- p_shape v ;;
           ret (mk_header (h_dtype h) (h_endian h) (h_fortran h) sh (h_maxlen h))
         else lift (Throw RuntimeError)) ;;
  p_char v 44 ;;;
  p_skip_ws ;;;
  ret h'.

(** src/npy.cpp 86-117: the dictionary loop and the closing brace. *)
Fixpoint p_entries (v : env) (fuel : nat) (h : header_info) : M pst header_info :=
  match fuel with
  | O => lift (Undef OutOfFuel)
  | S f =>
      c <- p_peek ;;
      if c =? 125 then p_char v 125 ;;; ret h
      else h' <- p_entry v h ;; p_entries v f h'
  end.

(** src/npy.cpp 84-118: header_info::header_info(dictionary). The globals go in
    and out as a pair. *)
Definition globals := (bytes * dmap)%type.
(** src/npy.cpp 84-118 *)
Definition parse_dictionary (v : env) (d : bytes) (g : globals)
  : outcome header_info * globals :=
  let '(o, p) := (p_char v 123 ;;; p_entries v (S (length d)) header_uninit)
                   (mk_pst (open_str d) (fst g) (snd g)) in
  (o, (p_buf p, p_map p)).

(** A fixed-size array after a read of [got] into it. *)
Definition cells (n : nat) (got : bytes) : list (option Z) :=
  firstn n (map Some got ++ repeat None n).
(** Helper: a cell of that array. *)
Definition cell (l : list (option Z)) (i : nat) : outcome Z :=
  match nth i l None with Some x => Ok x | None => Undef UninitRead end.

(** include/npy/npy.h 300-305: the asserts on the magic string. *)
Fixpoint check_magic (l : list (option Z)) (i : nat) (expected : bytes) : outcome unit :=
  match expected with
  | [] => Ok tt
  | e :: t => let* x := cell l i in
              if x =? e then check_magic l (S i) t else AssertFail
  end.

(** include/npy/npy.h 306-314: the declared dictionary length. Version 1.0 has two
    length bytes, version 2.0 four (computed in int, so bit 31 sign-extends into
    size_t); any other version means 0. *)
Definition cell_is (l : list (option Z)) (i : nat) (x : Z) : outcome bool :=
  let* y := cell l i in Ok (y =? x).
(** Helper: &&. *)
Definition and_then (a : outcome bool) (b : outcome bool) : outcome bool :=
  let* x := a in if x then b else Ok false.
(** include/npy/npy.h 311-313: int to size_t *)
Definition s32_to_size (z : Z) : Z := if z <? 2147483648 then z else u64 (z - 4294967296).

(** include/npy/npy.h 296-320: read_npy_header *)
Definition read_npy_header (v : env) (s : istream) (g : globals)
  : outcome header_info * istream * globals :=
  let (got, s1) := sread STATIC_HEADER_LENGTH s in
  let h := cells 10 got in
  let pre :=
    let* _ := (if dbg v then check_magic h 0 [147; 78; 85; 77; 80; 89] else Ok tt) in
    let* v1 := and_then (cell_is h 6 1) (cell_is h 7 0) in
    if v1 then
      let* a := cell h 8 in let* b := cell h 9 in Ok (a + 256 * b, s1)
    else
      let* v2 := and_then (cell_is h 6 2) (cell_is h 7 0) in
      if v2 then
        let (ex, s2) := sread 2 s1 in
        let x := cells 2 ex in
        let* a := cell h 8 in let* b := cell h 9 in
        let* c := cell x 0 in let* d := cell x 1 in
        Ok (s32_to_size (a + 256 * b + 65536 * c + 16777216 * d), s2)
      else Ok (0, s1) in
  match pre with
  | Ok (n, s2) =>
      if n >? mem v then (Throw AllocError, s2, g)
      else
        let (d, s3) := sread n s2 in
        let buf := d ++ zrepeat 0 (n - len d) in
        let (o, g') := parse_dictionary v buf g in (o, s3, g')
  | Throw e => (Throw e, s1, g)
  | AssertFail => (AssertFail, s1, g)
  | Undef u => (Undef u, s1, g)
  end.
