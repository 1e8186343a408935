(** std::istream as libnpy uses it (libstdc++ 13 semantics). *)
From Coq Require Import String ZArith List Bool Lia.
From Verif Require Import Base.
Import ListNotations.
Open Scope Z_scope.

(** The part of std::istream's state libnpy can see. Not in /repo: the C++ library; used by include/npy/npy.h 230-379, src/npy.cpp 13-80, src/npz.cpp 56-590. *)
Record istream := mk_istream {
  whole : bytes;    (* everything the stream holds *)
  rest : bytes;     (* what is still unread *)
  eofb : bool;      (* eofbit *)
  failb : bool;     (* failbit *)
  is_file : bool    (* std::ifstream rather than std::istringstream *)
}.

(** std::istringstream(b): src/npy.cpp 71, 85, src/npz.cpp 514-521, 537-540. *)
Definition open_str (b : bytes) : istream := mk_istream b b false false false.
(** std::ifstream(path, ios::binary) on a file that opens: include/npy/npy.h 355, src/npz.cpp 542-555. *)
Definition open_file (b : bytes) : istream := mk_istream b b false false true.

(** ios::good(): what every unformatted read (sentry) asks first. *)
Definition good (s : istream) : bool := negb (eofb s) && negb (failb s).
(** Helper: move the read position. *)
Definition set_rest (s : istream) (r : bytes) :=
  mk_istream (whole s) r (eofb s) (failb s) (is_file s).
(** Helper: setstate(failbit). *)
Definition set_fail (s : istream) :=
  mk_istream (whole s) (rest s) (eofb s) true (is_file s).
(** Helper: setstate(eofbit). *)
Definition set_eof (s : istream) :=
  mk_istream (whole s) (rest s) true (failb s) (is_file s).

(** istream::read(buf, n): the characters stored, which may be fewer than n. *)
Definition sread (n : Z) (s : istream) : bytes * istream :=
  if good s then
    let got := ztake n (rest s) in
    let s' := set_rest s (zdrop n (rest s)) in
    if len got <? n then (got, set_fail (set_eof s')) else (got, s')
  else ([], set_fail s).

(** istream::get() -> int; -1 is EOF.  istream::get(char&) is the same with the
    character left untouched when the result is -1. *)
Definition sget (s : istream) : Z * istream :=
  if good s then
    match rest s with
    | [] => (-1, set_fail (set_eof s))
    | c :: r => (c, set_rest s r)
    end
  else (-1, set_fail s).

(** istream::peek() *)
Definition speek (s : istream) : Z * istream :=
  if good s then
    match rest s with
    | [] => (-1, set_eof s)
    | c :: _ => (c, s)
    end
  else (-1, set_fail s).

(** istream::get(buf, n, delim): stores at most n-1 characters, stopping before
    [delim]; sets failbit if none, eofbit at the end.  The terminating NUL is
    added by the caller's buffer model. *)
Fixpoint take_until (n : Z) (delim : Z) (l : bytes) : bytes * bytes * bool :=
  match l with
  | [] => ([], [], true)          (* the next character is EOF *)
  | c :: t =>
      if n <=? 0 then ([], l, false)
      else if c =? delim then ([], l, false)
      else let '(a, b, e) := take_until (n - 1) delim t in (c :: a, b, e)
  end.

(** istream::get(char*, n, delim), as called at src/npy.cpp 38. *)
Definition sgetbuf (n : Z) (delim : Z) (s : istream) : bytes * istream :=
  if good s then
    let '(a, b, e) := take_until (n - 1) delim (rest s) in
    let s1 := set_rest s b in
    let s2 := if e then set_eof s1 else s1 in
    (a, if (match a with [] => true | _ => false end) then set_fail s2 else s2)
  else ([], set_fail s).

(** std::isspace in the "C" locale; -1 (EOF) is not a space. *)
Definition is_space (c : Z) : bool := (c =? 32) || ((9 <=? c) && (c <=? 13)).

(** Helper of operator>> and std::stoi. *)
Definition is_digit (c : Z) : bool := (48 <=? c) && (c <=? 57).

(** Helper of operator>> and std::stoi: std::ws. *)
Fixpoint drop_spaces (l : bytes) : bytes :=
  match l with
  | [] => []
  | c :: t => if is_space c then drop_spaces t else l
  end.

(** Helper of operator>> and std::stoi: the longest run of digits. *)
Fixpoint span_digits (l : bytes) : bytes * bytes :=
  match l with
  | [] => ([], [])
  | c :: t => if is_digit c then let (a, b) := span_digits t in (c :: a, b)
              else ([], l)
  end.

(** Helper of operator>> and std::stoi: strtoull base 10. *)
Definition digits_value (l : bytes) : Z :=
  fold_left (fun a c => 10 * a + (c - 48)) l 0.

(** operator>>(istream&, size_t&): [None] means the stream ended up failed. *)
Definition sextract_u64 (s : istream) : option Z * istream :=
  if good s then
    match drop_spaces (rest s) with
    | [] => (None, set_fail (set_eof (set_rest s [])))
    | c :: t =>
        let neg := c =? 45 in
        let signed := neg || (c =? 43) in
        let body := if signed then t else c :: t in
        let (ds, r) := span_digits body in
        let s1 := set_rest s r in
        let s2 := match r with [] => set_eof s1 | _ => s1 end in
        match ds with
        | [] => (None, set_fail s2)
        | _ => let v := digits_value ds in
               if v >? max64 then (None, set_fail s2)
               else (Some (if neg then u64 (- v) else v), s2)
        end
    end
  else (None, set_fail s).

(** istream::seekg.  eofbit is cleared first; nothing moves on a failed stream;
    a string stream refuses to go past its end, a file does not (its position
    past the end is represented by an empty rest). *)
Definition sseek_abs (p : Z) (s : istream) : istream :=
  let s0 := mk_istream (whole s) (rest s) false (failb s) (is_file s) in
  if failb s then s0
  else if (p <? 0) || (negb (is_file s) && (p >? len (whole s))) then set_fail s0
  else set_rest s0 (zdrop p (whole s)).

(** istream::tellg; used to express seekg(d, ios::cur). *)
Definition spos (s : istream) : Z := len (whole s) - len (rest s).
(** seekg(d, ios::end): src/npz.cpp 321. *)
Definition sseek_end (d : Z) (s : istream) : istream := sseek_abs (len (whole s) + d) s.
(** seekg(d, ios::cur): src/npz.cpp 170. *)
Definition sseek_cur (d : Z) (s : istream) : istream := sseek_abs (spos s + d) s.
