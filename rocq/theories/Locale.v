(** Saving and loading in a program whose global C++ locale groups digits.

    Header.v models the header functions in the classic locale, the one every program
    starts in. The two string streams the library formats and parses dimensions with
    (include/npy/npy.h 186, src/npy.cpp 65) take the locale that is global when they are
    made, so after std::locale::global they print and read numbers with that locale's
    thousands separator. Here are the functions on that path again, with the locale as an
    argument; all other lines are those of Header.v and Npy.v, and PropLocale.v proves that
    in the classic locale they are the same functions. std::to_string and std::stoi, used
    for the length of strings, group in no locale. *)
From Coq Require Import String ZArith List Bool.
From Verif Require Import Base Stream Dtype Values Header Tensor Npy Npz.
Import ListNotations.
Open Scope Z_scope.
Local Open Scope monad_scope.

(** numpunct<char>: the separator and the sizes of the groups from the right; the last size
    repeats, and a size that is not positive or is CHAR_MAX means no further grouping. *)
Record locale := mk_locale { thousands_sep : Z; grouping : list Z }.
(** std::locale::classic() *)
Definition classic : locale := mk_locale 44 [].

(** Helper: a group size that groups. *)
Definition limited (g : Z) : bool := (0 <? g) && (g <? 127).
(** Helper: whether numbers are grouped at all. *)
Definition use_grouping (l : locale) : bool :=
  match grouping l with g :: _ => limited g | [] => false end.
(** Helper: the sizes for the groups further left. *)
Definition next_sizes (gs : list Z) : list Z := match gs with _ :: (_ :: _) => tl gs | _ => gs end.

(** ** operator<<(ostream&, size_t) *)
(** The digits with separators, from the right. *)
Fixpoint add_grouping (fuel : nat) (sep : Z) (gs : list Z) (ds : bytes) : bytes :=
  match fuel, gs with
  | S f, g :: _ =>
      if (len ds >? g) && limited g then
        add_grouping f sep (next_sizes gs) (ztake (len ds - g) ds) ++ [sep] ++ zdrop (len ds - g) ds
      else ds
  | _, _ => ds
  end.
(** num_put *)
Definition put_u64 (l : locale) (d : Z) : bytes :=
  let ds := dec d in
  if use_grouping l then add_grouping (length ds) (thousands_sep l) (grouping l) ds else ds.

(** ** operator>>(istream&, size_t&) *)
(** num_get, second stage: digits and separators are accumulated up to the first other
    character; a separator with no digit before it ends the number and makes it invalid.
    [pos] counts the digits since the last separator, [found] the digits of the groups
    before (each less than 128, as they are kept in char). *)
Fixpoint scan (l : locale) (t : bytes) (pos : Z) (found : list Z) (ds : bytes)
  : bool * Z * list Z * bytes * bytes :=
  match t with
  | [] => (false, pos, found, ds, [])
  | c :: r =>
      if use_grouping l && (c =? thousands_sep l) then
        if pos =? 0 then (true, pos, found, ds, t)
        else scan l r 0 (found ++ [pos]) ds
      else if is_digit c then scan l r (pos + 1) found (ds ++ [c])
      else (false, pos, found, ds, t)
  end.
(** num_get, third stage: the groups found, from the right, against the sizes. All but the
    leftmost must be exact. *)
Fixpoint verify (gs : list Z) (groups : list Z) : bool :=
  match groups, gs with
  | [f], g :: _ => if limited g then f <=? g else true
  | f :: r, g :: _ => (f =? g) && verify (next_sizes gs) r
  | _, _ => true
  end.
(** [None] means the stream ended up failed, as in Stream.sextract_u64. *)
Definition get_u64 (l : locale) (s : istream) : option Z * istream :=
  if good s then
    match drop_spaces (rest s) with
    | [] => (None, set_fail (set_eof (set_rest s [])))
    | c :: t =>
        let is_sep := use_grouping l && (c =? thousands_sep l) in
        let neg := (c =? 45) && negb is_sep in
        let signed := neg || ((c =? 43) && negb is_sep) in
        let body := if signed then t else c :: t in
        let '(bad, pos, found, ds, r) := scan l body 0 [] [] in
        let s1 := set_rest s r in
        let s2 := match r with [] => set_eof s1 | _ => s1 end in
        let matching := match found with
                        | [] => true
                        | _ => verify (grouping l) (rev (found ++ [pos]))
                        end in
        match ds with
        | [] => (None, set_fail s2)
        | _ => let v := digits_value ds in
               if bad || negb matching || (v >? max64) then (None, set_fail s2)
               else (Some (if neg then u64 (- v) else v), s2)
        end
    end
  else (None, set_fail s).

(** ** The functions of Header.v and Npy.v on the way *)
(** include/npy/npy.h 190-195 *)
Fixpoint dims_text_in (l : locale) (shape : list Z) : bytes :=
  match shape with
  | [] => []
  | [d] => put_u64 l d
  | d :: t => put_u64 l d ++ str ", " ++ dims_text_in l t
  end.
(** include/npy/npy.h 186-202 *)
Definition dictionary_in (l : locale) (dt : bytes) (fortran : bool) (shape : list Z) : bytes :=
  str "{'descr': '" ++ dt
  ++ str "', 'fortran_order': " ++ (if fortran then str "True" else str "False")
  ++ str ", 'shape': ("
  ++ dims_text_in l shape
  ++ (match shape with [_] => str "," | _ => [] end)
  ++ str "), }".
(** include/npy/npy.h 182-220 *)
Definition write_npy_header_in (l : locale) (dt : bytes) (fortran : bool) (shape : list Z) : bytes :=
  let dict := dictionary_in l dt fortran shape in
  let dict_length0 := len dict + 1 in
  let header_length0 := dict_length0 + STATIC_HEADER_LENGTH in
  let '(dict_length, ending) :=
    if header_length0 mod 64 =? 0 then (dict_length0, [10])
    else
      let header_length := (header_length0 / 64 + 1) * 64 in
      let dict_length := header_length - STATIC_HEADER_LENGTH in
      (dict_length, zrepeat 32 (dict_length - len dict - 1) ++ [10]) in
  [147; 78; 85; 77; 80; 89; 1; 0; u8 dict_length; 0] ++ dict ++ ending.
(** include/npy/npy.h 239-252 *)
Definition save_in (l : locale) (v : env) (t : tensor) (e : endian) : outcome bytes :=
  let* shape := dims_of t (length (t_shape t)) 0 in
  let* dt := tensor_dtype v t e in
  Ok (write_npy_header_in l dt (t_fortran t) shape
      ++ write_values v (t_dtype t) e (t_values t)).

(** src/npy.cpp 71-77 *)
Fixpoint shape_loop_in (l : locale) (fuel : nat) (s : istream) : outcome (list Z) :=
  match fuel with
  | O => Undef OutOfFuel
  | S f =>
      match get_u64 l s with
      | (None, _) => Ok []
      | (Some d, s1) =>
          let (c, s2) := speek s1 in
          let* s3 := (if c =? 44 then
                        let (_, s') := sget s2 in
                        let (o, s'') := skip_ws s' in
                        let* _ := o in Ok s''
                      else Ok s2) in
          let* r := shape_loop_in l f s3 in Ok (d :: r)
      end
  end.
(** src/npy.cpp 70-79 *)
Definition parse_shape_in (l : locale) (t : bytes) : outcome (list Z) :=
  shape_loop_in l (S (length t)) (open_str t).
(** src/npy.cpp 63-80 *)
Definition p_shape_in (l : locale) (v : env) : M pst (list Z) :=
  p_char v 40 ;;;
  t <- p_read_to v 41 ;;
  p_char v 41 ;;;
  lift (parse_shape_in l t).
(** src/npy.cpp 87-114 *)
Definition p_entry_in (l : locale) (v : env) (h : header_info) : M pst header_info :=
  p_skip_ws ;;;
  key <- p_string v ;;
  p_skip_ws ;;;
  p_char v 58 ;;;
  p_skip_ws ;;;
  h' <- (if beq key (str "descr") then
           code <- p_string v ;;
           x <- p_descr code ;;
           let '(d, e, n) := x in
           ret (mk_header (Some d) (Some e) (h_fortran h) (h_shape h) (Some n))
         else if beq key (str "fortran_order") then
           b <- p_bool v ;;
           ret (mk_header (h_dtype h) (h_endian h) (Some b) (h_shape h) (h_maxlen h))
         else if beq key (str "shape") then
           sh <- p_shape_in l v ;;
           ret (mk_header (h_dtype h) (h_endian h) (h_fortran h) sh (h_maxlen h))
         else lift (Throw RuntimeError)) ;;
  p_char v 44 ;;;
  p_skip_ws ;;;
  ret h'.
(** src/npy.cpp 86-117 *)
Fixpoint p_entries_in (l : locale) (v : env) (fuel : nat) (h : header_info) : M pst header_info :=
  match fuel with
  | O => lift (Undef OutOfFuel)
  | S f =>
      c <- p_peek ;;
      if c =? 125 then p_char v 125 ;;; ret h
      else h' <- p_entry_in l v h ;; p_entries_in l v f h'
  end.
(** src/npy.cpp 84-118 *)
Definition parse_dictionary_in (l : locale) (v : env) (d : bytes) (g : globals)
  : outcome header_info * globals :=
  let '(o, p) := (p_char v 123 ;;; p_entries_in l v (S (length d)) header_uninit)
                   (mk_pst (open_str d) (fst g) (snd g)) in
  (o, (p_buf p, p_map p)).
(** include/npy/npy.h 296-320 *)
Definition read_npy_header_in (l : locale) (v : env) (s : istream) (g : globals)
  : outcome header_info * istream * globals :=
  let (got, s1) := sread STATIC_HEADER_LENGTH s in
  let h := cells 10 got in
  let pre :=
    let* _ := (if dbg v then check_magic h 0 [147; 78; 85; 77; 80; 89] else Ok tt) in
    let* v1 := and_then (cell_is h 6 1) (cell_is h 7 0) in
    if v1 then
      let* a := cell h 8 in let* b := cell h 9 in Ok (a + 256 * b, s1)
    else
      let* v2 := and_then (cell_is h 6 2) (cell_is h 7 0) in
      if v2 then
        let (ex, s2) := sread 2 s1 in
        let x := cells 2 ex in
        let* a := cell h 8 in let* b := cell h 9 in
        let* c := cell x 0 in let* d := cell x 1 in
        Ok (s32_to_size (a + 256 * b + 65536 * c + 16777216 * d), s2)
      else Ok (0, s1) in
  match pre with
  | Ok (n, s2) =>
      if n >? mem v then (Throw AllocError, s2, g)
      else
        let (d, s3) := sread n s2 in
        let buf := d ++ zrepeat 0 (n - len d) in
        let (o, g') := parse_dictionary_in l v buf g in (o, s3, g')
  | Throw e => (Throw e, s1, g)
  | AssertFail => (AssertFail, s1, g)
  | Undef u => (Undef u, s1, g)
  end.
(** include/npy/npy.h 333-336 *)
Definition load_in (l : locale) (v : env) (d : dtype) (s : istream) (g : globals)
  : outcome tensor * istream * globals :=
  match read_npy_header_in l v s g with
  | (Ok h, s1, g1) => let (o, s2) := tensor_load v d h s1 in (o, s2, g1)
  | (Throw x, s1, g1) => (Throw x, s1, g1)
  | (AssertFail, s1, g1) => (AssertFail, s1, g1)
  | (Undef u, s1, g1) => (Undef u, s1, g1)
  end.

(** ** Members of archives *)
(** include/npy/npy.h 433-449, 507-523 *)
Definition w_write_in (l : locale) (v : env) (c : codec) (w : writer) (name : bytes) (t : tensor)
  : outcome writer :=
  if w_closed w then Throw RuntimeError
  else let* b := save_in l v t (w_endian w) in
       w_write_file c w (archive_name name) b.
(** include/npy/npy.h 567-570, 634-637 *)
Definition r_read_in (l : locale) (v : env) (c : codec) (d : dtype) (r : reader) (name : bytes)
    (g : globals) : outcome tensor * reader * globals :=
  match r_read_file v c r name with
  | (Ok b, r') => let '(o, _, g') := load_in l v d (open_str b) g in (o, r', g')
  | (Throw e, r') => (Throw e, r', g)
  | (AssertFail, r') => (AssertFail, r', g)
  | (Undef u, r') => (Undef u, r', g)
  end.
(** src/npz.cpp 537-540, 580-583: peek *)
Definition r_peek_in (l : locale) (v : env) (c : codec) (r : reader) (name : bytes) (g : globals)
  : outcome header_info * reader * globals :=
  match r_read_file v c r name with
  | (Ok b, r') => let '(o, _, g') := read_npy_header_in l v (open_str b) g in (o, r', g')
  | (Throw e, r') => (Throw e, r', g)
  | (AssertFail, r') => (AssertFail, r', g)
  | (Undef u, r') => (Undef u, r', g)
  end.
