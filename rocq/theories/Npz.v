(** NPZ archives: src/npz.cpp and the npz classes of include/npy/npy.h 378-665. *)
From Coq Require Import String ZArith List Bool Lia.
From Verif Require Import Base Stream Dtype Values Header Tensor Npy Crc.
Import ListNotations.
Open Scope Z_scope.

(** src/npz.cpp 14-27 *)
Definition LOCAL_HEADER_SIG : bytes := [0x50; 0x4B; 3; 4].
(** src/npz.cpp 14-27 *)
Definition CD_HEADER_SIG : bytes := [0x50; 0x4B; 1; 2].
(** src/npz.cpp 14-27 *)
Definition CD_END_SIG : bytes := [0x50; 0x4B; 5; 6].
(** src/npz.cpp 14-27 *)
Definition EXTERNAL_ATTR : bytes := [0; 0; 0x80; 1].
(** src/npz.cpp 14-27 *)
Definition TIME : bytes := [0; 0; 0x21; 0].
(** src/npz.cpp 14-27 *)
Definition CD_END_SIZE : Z := 22.
(** src/npz.cpp 14-27 *)
Definition STANDARD_VERSION : Z := 20.
(** src/npz.cpp 14-27 *)
Definition ZIP64_VERSION : Z := 45.
(** src/npz.cpp 14-27 *)
Definition ZIP64_TAG : Z := 1.
(** src/npz.cpp 14-27 *)
Definition ZIP64_LIMIT : Z := 0x8FFFFFFF.
(** src/npz.cpp 14-27 *)
Definition ZIP64_PLACEHOLDER : Z := 0xFFFFFFFF.

(** src/npz.cpp 29-54: write(uint16/32/64), write32 *)
Definition write16 (x : Z) : bytes := [Z.land x 0xFF; Z.shiftr x 8].
(** Helper: the byte loops of src/npz.cpp 34-39, 49-54 *)
Fixpoint put_le (n : nat) (x : Z) : bytes :=
  match n with
  | O => []
  | S n' => Z.land x 0xFF :: put_le n' (Z.shiftr x 8)
  end.
(** src/npz.cpp 34-39 *)
Definition write32u (x : Z) : bytes := put_le 4 x.
(** src/npz.cpp 49-54 *)
Definition write64u (x : Z) : bytes := put_le 8 x.
(** src/npz.cpp 41-47 *)
Definition write32 (x : Z) : bytes :=
  if x >? ZIP64_LIMIT then write32u ZIP64_PLACEHOLDER else write32u (u32 x).

(** src/npz.cpp 56-82: read16/32/64. get() is -1 at the end of the stream. *)
Definition read16 (s : istream) : Z * istream :=
  let (a, s1) := sget s in
  let (b, s2) := sget s1 in
  (u16 (Z.lor (u16 a) (Z.shiftl (u16 b) 8)), s2).
(** Helper: the byte loops of src/npz.cpp 62-82 *)
Fixpoint read_le (w : Z) (n : nat) (shift acc : Z) (s : istream) : Z * istream :=
  match n with
  | O => (acc, s)
  | S n' =>
      let (c, s1) := sget s in
      read_le w n' (shift + 8)
              (Z.lor acc (Z.shiftl (c mod 2 ^ w) shift mod 2 ^ w)) s1
  end.
(** src/npz.cpp 62-71 *)
Definition read32 (s : istream) : Z * istream := read_le 32 4 0 0 s.
(** src/npz.cpp 73-82 *)
Definition read64 (s : istream) : Z * istream := read_le 64 8 0 0 s.

(** Monadic forms. *)
Definition IO A := M istream A.
(** Helper: monad. *)
Definition of_fun {A} (f : istream -> A * istream) : IO A :=
  fun s => let (a, s') := f s in (Ok a, s').
(** src/npz.cpp 56-60 *)
Definition rd16 : IO Z := of_fun read16.
(** src/npz.cpp 62-71 *)
Definition rd32 : IO Z := of_fun read32.
(** src/npz.cpp 73-82 *)
Definition rd64 : IO Z := of_fun read64.

Local Open Scope monad_scope.

(** src/npz.cpp 84-97: assert_sig. A short read leaves part of [actual]
    uninitialised; comparing it is undefined. *)
Definition assert_sig (expected : bytes) : IO unit :=
  fun s =>
    let (got, s') := sread 4 s in
    (if len got <? 4 then Undef UninitRead
     else if beq got expected then Ok tt else Throw RuntimeError, s').

(** include/npy/npy.h 386-404: file_entry *)
Record file_entry := mk_entry {
  f_name : bytes;
  f_crc : Z;
  f_csize : Z;
  f_usize : Z;
  f_method : Z;
  f_offset : Z
}.

(** src/npz.cpp 99-115: determine_extra_length *)
Definition determine_extra_length (h : file_entry) (include_offset : bool) : Z :=
  (if f_csize h >? ZIP64_LIMIT then 8 else 0)
  + (if f_usize h >? ZIP64_LIMIT then 8 else 0)
  + (if include_offset && (f_offset h >? ZIP64_LIMIT) then 8 else 0).

(** src/npz.cpp 117-137: write_zip64_extra *)
Definition write_zip64_extra (h : file_entry) (include_offset : bool) : bytes :=
  let extra :=
    (if f_usize h >? ZIP64_LIMIT then [f_usize h] else [])
    ++ (if f_csize h >? ZIP64_LIMIT then [f_csize h] else [])
    ++ (if include_offset && (f_offset h >? ZIP64_LIMIT) then [f_offset h] else []) in
  write16 ZIP64_TAG ++ write16 (u16 (len extra * 8)) ++ flat_map write64u extra.

(** src/npz.cpp 139-172: read_zip64_extra; fields are replaced when they hold the
    placeholder. *)
Definition read_zip64_extra (h : file_entry) (include_offset : bool) : IO file_entry :=
  tag <- rd16 ;;
  if negb (tag =? ZIP64_TAG) then lift (Throw RuntimeError)
  else
    actual <- rd16 ;;
    x1 <- (if f_usize h =? ZIP64_PLACEHOLDER then
             u <- rd64 ;; ret (u, 8) else ret (f_usize h, 0)) ;;
    x2 <- (if f_csize h =? ZIP64_PLACEHOLDER then
             c <- rd64 ;; ret (c, 8) else ret (f_csize h, 0)) ;;
    x3 <- (if include_offset && (f_offset h =? ZIP64_PLACEHOLDER) then
             o <- rd64 ;; ret (o, 8) else ret (f_offset h, 0)) ;;
    let expected := snd x1 + snd x2 + snd x3 in
    let h' := mk_entry (f_name h) (f_crc h) (fst x2) (fst x1) (f_method h) (fst x3) in
    if actual <? expected then lift (Throw RuntimeError)
    else if actual >? expected then
      fun s => (Ok h', sseek_cur (actual - expected) s)
    else ret h'.

(** src/npz.cpp 174-183: write_shared_header *)
Definition write_shared_header (h : file_entry) : bytes :=
  write16 0 ++ write16 (f_method h) ++ TIME ++ write32u (f_crc h)
  ++ write32 (f_csize h) ++ write32 (f_usize h) ++ write16 (u16 (len (f_name h))).

(** src/npz.cpp 185-194: read_shared_header; also returns the name length. *)
Definition read_shared_header : IO (Z * Z * Z * Z * Z) :=
  rd16 ;;;
  method <- rd16 ;;
  rd32 ;;;
  crc <- rd32 ;;
  csize <- rd32 ;;
  usize <- rd32 ;;
  namelen <- rd16 ;;
  ret (method, crc, csize, usize, namelen).

(** src/npz.cpp 196-208: write_local_header *)
Definition write_local_header (h : file_entry) (zip64 : bool) : bytes :=
  let extra := determine_extra_length h false in
  LOCAL_HEADER_SIG ++ write16 (if zip64 then ZIP64_VERSION else STANDARD_VERSION)
  ++ write_shared_header h ++ write16 extra ++ f_name h
  ++ (if extra >? 0 then write_zip64_extra h false else []).

(** src/npz.cpp 220-222, 269-271: a name read into a zeroed vector<char>. *)
Definition read_name (n : Z) : IO bytes :=
  fun s => let (got, s') := sread n s in (Ok (got ++ zrepeat 0 (n - len got)), s').

(** src/npz.cpp 210-230: read_local_header. [entry.offset] is left uninitialised
    in C++ and never used (file_entry::check ignores it); 0 here. *)
Definition read_local_header : IO file_entry :=
  assert_sig LOCAL_HEADER_SIG ;;;
  version <- rd16 ;;
  if version >? ZIP64_VERSION then lift (Throw RuntimeError)
  else
    x <- read_shared_header ;;
    let '(method, crc, csize, usize, namelen) := x in
    extra <- rd16 ;;
    name <- read_name namelen ;;
    let h := mk_entry name crc csize usize method 0 in
    if extra >? 0 then read_zip64_extra h false else ret h.

(** src/npz.cpp 232-254: write_central_directory_header *)
Definition write_cd_header (h : file_entry) : bytes :=
  let extra := determine_extra_length h true in
  CD_HEADER_SIG ++ write16 STANDARD_VERSION
  ++ write16 (if extra >? 0 then ZIP64_VERSION else STANDARD_VERSION)
  ++ write_shared_header h ++ write16 extra
  ++ write16 0 ++ write16 0 ++ write16 0 ++ EXTERNAL_ATTR
  ++ write32 (f_offset h) ++ f_name h
  ++ (if extra >? 0 then write_zip64_extra h true else []).

(** src/npz.cpp 256-282: read_central_directory_header *)
Definition read_cd_header : IO file_entry :=
  assert_sig CD_HEADER_SIG ;;;
  rd16 ;;;
  version <- rd16 ;;
  if version >? ZIP64_VERSION then lift (Throw RuntimeError)
  else
    x <- read_shared_header ;;
    let '(method, crc, csize, usize, namelen) := x in
    extra <- rd16 ;;
    rd16 ;;;
    rd16 ;;;
    rd16 ;;;
    rd32 ;;;
    offset <- rd32 ;;
    name <- read_name namelen ;;
    let h := mk_entry name crc csize usize method offset in
    if extra >? 0 then read_zip64_extra h true else ret h.

(** src/npz.cpp 284-304: CentralDirectory, write_end_of_central_directory *)
Definition write_eocd (num_entries size offset : Z) : bytes :=
  CD_END_SIG ++ write16 0 ++ write16 0 ++ write16 num_entries ++ write16 num_entries
  ++ write32u size ++ write32u offset ++ write16 0.

(** src/npz.cpp 306-316: read_end_of_central_directory *)
Definition read_eocd : IO (Z * Z * Z) :=
  assert_sig CD_END_SIG ;;;
  rd16 ;;;
  rd16 ;;;
  n <- rd16 ;;
  rd16 ;;;
  size <- rd32 ;;
  offset <- rd32 ;;
  ret (n, size, offset).

(** std::map<std::string, file_entry>, newest binding first. *)
Definition emap := list (bytes * file_entry).
(** std::map<std::string, file_entry>::find / count: src/npz.cpp 383, 534, 577 *)
Fixpoint efind (m : emap) (k : bytes) : option file_entry :=
  match m with
  | [] => None
  | (k', e) :: t => if beq k k' then Some e else efind t k
  end.

(** std::string operator<: unsigned char lexicographic. *)
Fixpoint bytes_leb (a b : bytes) : bool :=
  match a, b with
  | [], _ => true
  | _ :: _, [] => false
  | x :: a', y :: b' => if x <? y then true else if y <? x then false else bytes_leb a' b'
  end.
(** std::sort; any correct sort gives the same list, since equal strings are
    indistinguishable. *)
Fixpoint insert_key (k : bytes) (l : list bytes) : list bytes :=
  match l with
  | [] => [k]
  | x :: t => if bytes_leb k x then k :: l else x :: insert_key k t
  end.
(** src/npz.cpp 332: std::sort *)
Definition sort_keys (l : list bytes) : list bytes := fold_right insert_key [] l.

(** src/npz.cpp 326-330: the directory loop. *)
Fixpoint read_cd_loop (n : nat) (m : emap) (keys : list bytes) : IO (emap * list bytes) :=
  match n with
  | O => ret (m, keys)
  | S n' =>
      e <- read_cd_header ;;
      read_cd_loop n' ((f_name e, e) :: m) (keys ++ [f_name e])
  end.

(** seekg takes a signed 64-bit offset. *)
Definition s64 (z : Z) : Z := if z <? 9223372036854775808 then z else z - 18446744073709551616.

(** src/npz.cpp 318-333: read_entries *)
Definition read_entries : IO (emap * list bytes) :=
  (fun s => (Ok tt, sseek_end (- CD_END_SIZE) s)) ;;;
  d <- read_eocd ;;
  let '(n, _, offset) := d in
  (fun s => (Ok tt, sseek_abs offset s)) ;;;
  x <- read_cd_loop (Z.to_nat n) [] [] ;;
  ret (fst x, sort_keys (snd x)).

(** ** Writing *)

(** Output streams: bytes so far; a stream that failed to open has [o_ok = false],
    drops writes and answers -1 to tellp. *)
Record ostream := mk_ostream { o_bytes : bytes; o_ok : bool }.
(** ostream::write; nothing happens on a failed stream *)
Definition owrite (o : ostream) (b : bytes) : ostream :=
  if o_ok o then mk_ostream (o_bytes o ++ b) true else o.
(** ostream::tellp; -1 on a failed stream *)
Definition otellp (o : ostream) : Z := if o_ok o then len (o_bytes o) else -1.

(** The two compression functions of src/zip.cpp, as parameters: theorems about
    archives say what they need of them; src/zip.cpp itself is modelled in
    Tinfl.v and Tdefl.v. *)
Record codec := mk_codec {
  c_deflate : bytes -> outcome bytes;
  c_inflate : bytes -> outcome bytes
}.

(** compression_method_t, include/npy/npy.h 378-383 *)
Definition STORED : Z := 0.
(** include/npy/npy.h: compression_method_t::DEFLATED *)
Definition DEFLATED : Z := 8.

(** src/npz.cpp 335-345: close. [wr] is the stream's write(): [owrite] for a stream that
    takes everything; ZipFiles.v uses others. *)
Definition close_archive_on (wr : ostream -> bytes -> ostream) (o : ostream) (entries : list file_entry) : ostream :=
  let offset := u32 (otellp o) in
  let o1 := wr o (flat_map write_cd_header entries) in
  let size := u32 (u32 (otellp o1) - offset) in
  wr o1 (write_eocd (u16 (len entries)) size offset).
(** src/npz.cpp 335-345 *)
Definition close_archive := close_archive_on owrite.

(** src/npz.cpp 347-375: write_file *)
Definition write_file_on (wr : ostream -> bytes -> ostream) (c : codec) (o : ostream) (entries : list file_entry)
    (name : bytes) (method : Z) (b : bytes) : outcome (ostream * list file_entry) :=
  let usize := u32 (len b) in
  let checksum := npy_crc32 b in
  let* cb := (if method =? STORED then Ok b
              else if method =? DEFLATED then c_deflate c b
              else Throw InvalidArgument) in
  let csize := if method =? STORED then usize else u32 (len cb) in
  let e := mk_entry name checksum csize usize (u16 method) (u32 (otellp o)) in
  let zip64 := (usize >? ZIP64_LIMIT) || (csize >? ZIP64_LIMIT) in
  let o1 := wr o (write_local_header e zip64) in
  let o2 := wr o1 (ztake csize cb) in
  Ok (o2, entries ++ [e]).
(** src/npz.cpp 347-375 *)
Definition write_file := write_file_on owrite.

(** ** Reading an entry *)

(** src/npz.cpp 430-435: file_entry::check *)
Definition entry_check (a b : file_entry) : bool :=
  beq (f_name b) (f_name a) && (f_crc b =? f_crc a) && (f_method b =? f_method a)
  && (f_csize b =? f_csize a) && (f_usize b =? f_usize a).

(** src/npz.cpp 385-393: name lookup with the .npy fallback. *)
Definition find_entry (m : emap) (name : bytes) : option file_entry :=
  match efind m name with
  | Some e => Some e
  | None => efind m (name ++ str ".npy")
  end.

(** src/npz.cpp 382-425: read_file. Unknown methods are treated like STORED. *)
Definition read_file (v : env) (c : codec) (m : emap) (name : bytes) : IO bytes :=
  match find_entry m name with
  | None => lift (Throw InvalidArgument)
  | Some e =>
      (fun s => (Ok tt, sseek_abs (s64 (f_offset e)) s)) ;;;
      l <- read_local_header ;;
      if negb (entry_check e l) then lift (Throw RuntimeError)
      else if f_csize e >? mem v then lift (Throw AllocError)
      else
        raw <- read_name (f_csize e) ;;
        b <- (if f_method e =? DEFLATED then lift (c_inflate c raw) else ret raw) ;;
        if npy_crc32 b =? f_crc e then ret b else lift (Throw RuntimeError)
  end.

(** ** Classes *)

(** include/npy/npy.h 407-462 npzstringwriter; 465-536 npzfilewriter (same code,
    over a file stream that may not be open). *)
Record writer := mk_writer {
  w_closed : bool;
  w_out : ostream;
  w_method : Z;
  w_endian : endian;
  w_entries : list file_entry
}.
(** src/npz.cpp 437-440: npzstringwriter's constructor *)
Definition new_writer (method : Z) (e : endian) : writer :=
  mk_writer false (mk_ostream [] true) method e [].
(** src/npz.cpp 462-482: npzfilewriter's constructors; [opened] is whether the path could be opened *)
Definition new_file_writer (opened : bool) (method : Z) (e : endian) : writer :=
  mk_writer false (mk_ostream [] opened) method e [].

(** include/npy/npy.h 441-446, 515-520: the .npy suffix. *)
Definition ends_with_npy (name : bytes) : bool :=
  if len name <? 4 then false else beq (ztake 4 (rev name)) (rev (str ".npy")).
(** include/npy/npy.h 441-446, 515-520 *)
Definition archive_name (name : bytes) : bytes :=
  if ends_with_npy name then name else name ++ str ".npy".

(** src/npz.cpp 450-458, 496-504: the private write_file. *)
Definition w_write_file_on (wr : ostream -> bytes -> ostream) (c : codec) (w : writer) (name b : bytes) : outcome writer :=
  if w_closed w then Throw RuntimeError
  else let* x := write_file_on wr c (w_out w) (w_entries w) name (w_method w) b in
       Ok (mk_writer false (fst x) (w_method w) (w_endian w) (snd x)).
(** src/npz.cpp 450-458, 496-504 *)
Definition w_write_file := w_write_file_on owrite.

(** include/npy/npy.h 433-449, 507-523: write<T> *)
Definition w_write_on (wr : ostream -> bytes -> ostream) (v : env) (c : codec) (w : writer) (name : bytes) (t : tensor)
  : outcome writer :=
  if w_closed w then Throw RuntimeError
  else let* b := save v t (w_endian w) in
       w_write_file_on wr c w (archive_name name) b.
(** include/npy/npy.h 433-449, 507-523 *)
Definition w_write := w_write_on owrite.

(** src/npz.cpp 460-465, 506-512: close *)
Definition w_close_on (wr : ostream -> bytes -> ostream) (w : writer) : writer :=
  if w_closed w then w
  else mk_writer true (close_archive_on wr (w_out w) (w_entries w))
                 (w_method w) (w_endian w) (w_entries w).
(** src/npz.cpp 460-465, 506-512 *)
Definition w_close := w_close_on owrite.
(** src/npz.cpp 442-446, 488-492: the destructor closes if needed; [Some] bytes is
    what is then in the string / file. *)
Definition w_destroy (w : writer) : writer := if w_closed w then w else w_close w.
(** src/npz.cpp 448: str *)
Definition w_str (w : writer) : bytes := o_bytes (w_out w).

(** include/npy/npy.h 539-592 npzstringreader, 595-665 npzfilereader. *)
Record reader := mk_reader {
  r_in : istream;
  r_entries : emap;
  r_keys : list bytes
}.
(** src/npz.cpp 318-333, 523-525, 557-563: read_entries *)
Definition open_reader (s : istream) : outcome reader :=
  match read_entries s with
  | (Ok (m, k), s') => Ok (mk_reader s' m k)
  | (Throw e, _) => Throw e
  | (AssertFail, _) => AssertFail
  | (Undef u, _) => Undef u
  end.
(** src/npz.cpp 514-517; 544-560: the path constructors. *)
Definition new_string_reader (b : bytes) : outcome reader := open_reader (open_str b).
(** src/npz.cpp 542-563 *)
Definition new_file_reader (file : option bytes) : outcome reader :=
  match file with
  | None => Throw InvalidArgument
  | Some b => open_reader (open_file b)
  end.

(** src/npz.cpp 533-535, 575-577 *)
Definition r_contains (r : reader) (name : bytes) : bool :=
  match efind (r_entries r) name with Some _ => true | None => false end.

(** src/npz.cpp 529-531, 572-574 *)
Definition r_read_file (v : env) (c : codec) (r : reader) (name : bytes)
  : outcome bytes * reader :=
  let (o, s) := read_file v c (r_entries r) name (r_in r) in
  (o, mk_reader s (r_entries r) (r_keys r)).

(** include/npy/npy.h 567-570, 634-637: read<T> *)
Definition r_read (v : env) (c : codec) (d : dtype) (r : reader) (name : bytes)
    (g : globals) : outcome tensor * reader * globals :=
  match r_read_file v c r name with
  | (Ok b, r') => let '(o, _, g') := load v d (open_str b) g in (o, r', g')
  | (Throw e, r') => (Throw e, r', g)
  | (AssertFail, r') => (AssertFail, r', g)
  | (Undef u, r') => (Undef u, r', g)
  end.

(** src/npz.cpp 537-540, 580-583: peek *)
Definition r_peek (v : env) (c : codec) (r : reader) (name : bytes) (g : globals)
  : outcome header_info * reader * globals :=
  match r_read_file v c r name with
  | (Ok b, r') => let '(o, _, g') := peek v (open_str b) g in (o, r', g')
  | (Throw e, r') => (Throw e, r', g)
  | (AssertFail, r') => (AssertFail, r', g)
  | (Undef u, r') => (Undef u, r', g)
  end.

(** include/npy/npy.h 648-651: npzfilereader::read<T, TENSOR> has no return
    statement; flowing off its end is undefined. *)
Definition r_read2_file (v : env) (c : codec) (d : dtype) (r : reader) (name : bytes)
    (g : globals) : outcome tensor * reader * globals :=
  match r_read v c d r name g with
  | (Ok _, r', g') => (Undef NoReturn, r', g')
  | x => x
  end.
