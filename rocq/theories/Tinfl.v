(** Decompression: src/miniz/miniz.cpp 287-376 and 437-777, src/zip.cpp 91-161, with
    the build options fixed in src/miniz/miniz.h 197-199 (unaligned accesses, little
    endian, 64-bit bit buffer) and for the only way libnpy calls it: raw DEFLATE
    (window bits -15, so no zlib header), MZ_NO_FLUSH (so TINFL_FLAG_HAS_MORE_INPUT is
    set), an output window of TINFL_LZ_DICT_SIZE bytes used as a ring.  The running
    Adler-32 (753-769) is computed and ignored by raw streams; it is left out.  The words
    of 648 are read as on a little-endian host; for the other kind see BigHost.v. *)
From Coq Require Import ZArith List Bool Lia.
From Verif Require Import Base Arr.
Import ListNotations.
Open Scope Z_scope.

(** src/miniz/miniz.h 767, 791-792; src/zip.cpp 14 *)
Definition TINFL_LZ_DICT_SIZE : Z := 32768.
(** src/miniz/miniz.h 792 *)
Definition TINFL_FAST_LOOKUP_BITS : Z := 10.
(** src/miniz/miniz.h 792 *)
Definition TINFL_FAST_LOOKUP_SIZE : Z := 1024.
(** src/zip.cpp 14 *)
Definition CHUNK : Z := 1048576.

(** The machine during one call of tinfl_decompress (507-526): unread input, bit
    buffer, window and position in it. The window always ends at
    TINFL_LZ_DICT_SIZE (347: out_bytes = TINFL_LZ_DICT_SIZE - m_dict_ofs). *)
Record tst := mk_tst {
  ti_in : bytes;      (* pIn_buf_cur .. pIn_buf_end *)
  ti_bb : Z;          (* bit_buf *)
  ti_nb : Z;          (* num_bits *)
  ti_dict : arr;      (* pOut_buf_start[..] = inflate_state::m_dict *)
  ti_cur : Z          (* pOut_buf_cur - pOut_buf_start *)
}.
(** Helper: pIn_buf_cur = .. *)
Definition set_in (s : tst) (i : bytes) := mk_tst i (ti_bb s) (ti_nb s) (ti_dict s) (ti_cur s).
(** Helper: bit_buf, num_bits = .. *)
Definition set_bits (s : tst) (bb nb : Z) := mk_tst (ti_in s) bb nb (ti_dict s) (ti_cur s).
(** Helper: pOut_buf_start[..], pOut_buf_cur = .. *)
Definition set_out (s : tst) (d : arr) (c : Z) := mk_tst (ti_in s) (ti_bb s) (ti_nb s) d c.

(** 440-443: tinfl_decompress is a coroutine: TINFL_CR_RETURN leaves with a status and
    the next call goes on at the same place.  The values that survive (m_dist,
    m_counter, ..., 512-515, 771) are those the continuation uses. *)
Inductive res (A : Type) :=
| RDone (a : A) (s : tst)
| RNeed (s : tst) (k : tst -> res A)      (* TINFL_STATUS_NEEDS_MORE_INPUT *)
| RMore (s : tst) (k : tst -> res A)      (* TINFL_STATUS_HAS_MORE_OUTPUT *)
| RFailed (s : tst)                       (* TINFL_CR_RETURN_FOREVER(.., FAILED) *)
| RUndef (u : ub).
Arguments RDone {A}. Arguments RNeed {A}. Arguments RMore {A}. Arguments RFailed {A}.
Arguments RUndef {A}.
(** 440-443: a piece of the coroutine's body *)
Definition T (A : Type) := tst -> res A.
(** 440-443: statement sequence, through suspensions *)
Fixpoint res_bind {A B} (r : res A) (f : A -> T B) : res B :=
  match r with
  | RDone a s => f a s
  | RNeed s k => RNeed s (fun s' => res_bind (k s') f)
  | RMore s k => RMore s (fun s' => res_bind (k s') f)
  | RFailed s => RFailed s
  | RUndef u => RUndef u
  end.
(** Helper: monad. *)
Definition tbind {A B} (m : T A) (f : A -> T B) : T B := fun s => res_bind (m s) f.
(** Helper: monad. *)
Definition tret {A} (a : A) : T A := fun s => RDone a s.
(** 444: TINFL_CR_RETURN_FOREVER(.., TINFL_STATUS_FAILED) *)
Definition tfail {A} : T A := fun s => RFailed s.
(** Helper: undefined behaviour inside the coroutine. *)
Definition tlift {A} (o : outcome A) : T A := fun s =>
  match o with
  | Ok a => RDone a s
  | Undef u => RUndef u
  | _ => RFailed s
  end.
Declare Scope tinfl_scope.
Delimit Scope tinfl_scope with tinfl.
Notation "x <- m ;; k" := (tbind m (fun x => k))
  (at level 61, m at next level, right associativity) : tinfl_scope.
Notation "m ;;; k" := (tbind m (fun _ => k))
  (at level 61, right associativity) : tinfl_scope.
Local Open Scope tinfl_scope.

(** 447-460: TINFL_GET_BYTE. [f] bounds how often an empty buffer may be offered. *)
Fixpoint get_byte (f : nat) : T Z := fun s =>
  match ti_in s with
  | c :: t => RDone c (set_in s t)
  | [] => match f with
          | O => RUndef OutOfFuel
          | S f' => RNeed s (get_byte f')
          end
  end.
(** bit_buf |= ((tinfl_bit_buf_t)c) << num_bits; num_bits += w *)
Definition add_bits (c w : Z) : T unit := fun s =>
  if (0 <=? ti_nb s) && (ti_nb s <? 64)
  then RDone tt (set_bits s (Z.lor (ti_bb s) (u64 (Z.shiftl c (ti_nb s)))) (ti_nb s + w))
  else RUndef BadShift.
(** bit_buf >>= n; num_bits -= n. num_bits is unsigned: less than n would wrap round. *)
Definition drop_bits (n : Z) : T unit := fun s =>
  if (0 <=? n) && (n <? 64) && (n <=? ti_nb s)
  then RDone tt (set_bits s (Z.shiftr (ti_bb s) n) (ti_nb s - n))
  else RUndef BadShift.
(** 512: the local num_bits *)
Definition num_bits : T Z := fun s => RDone (ti_nb s) s.
(** 513: the local bit_buf *)
Definition bit_buf : T Z := fun s => RDone (ti_bb s) s.

(** 462: TINFL_NEED_BITS, a do-while; at most two turns are needed, since n <= 16. *)
Fixpoint need_bits (turns f : nat) (n : Z) : T unit :=
  match turns with
  | O => tlift (Undef OutOfFuel)
  | S turns' =>
      c <- get_byte f ;;
      add_bits c 8 ;;;
      nb <- num_bits ;;
      if nb <? n then need_bits turns' f n else tret tt
  end.
(** 463-464: TINFL_SKIP_BITS, TINFL_GET_BITS *)
Definition get_bits (f : nat) (n : Z) : T Z :=
  nb <- num_bits ;;
  (if nb <? n then need_bits 3 f n else tret tt) ;;;
  bb <- bit_buf ;;
  drop_bits n ;;;
  tret (Z.land bb (Z.shiftl 1 n - 1)).

(** while (pOut_buf_cur >= pOut_buf_end) CR_RETURN(HAS_MORE_OUTPUT); *)
Fixpoint wait_room (f : nat) : T unit := fun s =>
  if ti_cur s >=? TINFL_LZ_DICT_SIZE then
    match f with
    | O => RUndef OutOfFuel
    | S f' => RMore s (wait_room f')
    end
  else RDone tt s.
(** pOut_buf_start[i]; a cell never written holds whatever malloc returned. *)
Definition dict_get (d : arr) (i : Z) : outcome Z :=
  if (0 <=? i) && (i <? TINFL_LZ_DICT_SIZE) then
    match arr_find d i with Some x => Ok x | None => Undef UninitRead end
  else Undef OutOfBounds.
(** pOut_buf_start[i] = x inside the window *)
Definition dict_put (d : arr) (i x : Z) : outcome arr :=
  if (0 <=? i) && (i <? TINFL_LZ_DICT_SIZE) then Ok (arr_set d i x) else Undef OutOfBounds.
(** 550, 645, 667, 680, 712: *pOut_buf_cur++ = c *)
Definition store (c : Z) : T unit := fun s =>
  match dict_put (ti_dict s) (ti_cur s) c with
  | Ok d => RDone tt (set_out s d (ti_cur s + 1))
  | Undef u => RUndef u
  | _ => RFailed s
  end.
(** 549-550, 643-645: wait for room, then *pOut_buf_cur++ = c *)
Definition put_byte (f : nat) (c : Z) : T unit :=
  wait_room f ;;; store c.

(** ** Huffman tables *)
(** src/miniz/miniz.h 795-799: m_look_up and m_tree *)
Record huff := mk_huff { hf_look : arr; hf_tree : arr }.
(** src/miniz/miniz.h 798: m_tree[TINFL_MAX_HUFF_SYMBOLS_0 * 2] *)
Definition TREE_SIZE : Z := 576.
(** 472, 497: m_look_up[bit_buf & (TINFL_FAST_LOOKUP_SIZE - 1)] *)
Definition look_at (h : huff) (bb : Z) : Z :=
  arr_get 0 (hf_look h) (Z.land bb (TINFL_FAST_LOOKUP_SIZE - 1)).
(** 476, 500, 613: m_tree[i], 576 cells *)
Definition tree_at (t : arr) (i : Z) : outcome Z :=
  if (0 <=? i) && (i <? TREE_SIZE) then Ok (arr_get 0 t i) else Undef OutOfBounds.
(** 613, 617: m_tree[i] = x *)
Definition tree_put (t : arr) (i x : Z) : outcome arr :=
  if (0 <=? i) && (i <? TREE_SIZE) then Ok (arr_set t i x) else Undef OutOfBounds.

(** 475-477: the walk of TINFL_HUFF_BITBUF_FILL, limited by the bits at hand; the
    result is the last entry seen. *)
Fixpoint walk_some (turns : nat) (h : huff) (bb nb temp code_len : Z) : outcome Z :=
  match turns with
  | O => Undef OutOfFuel
  | S turns' =>
      let* t := tree_at (hf_tree h) (- temp - 1 + Z.land (Z.shiftr bb code_len) 1) in
      if (t <? 0) && (nb >=? code_len + 2)
      then walk_some turns' h bb nb t (code_len + 1) else Ok t
  end.
(** 470-482: TINFL_HUFF_BITBUF_FILL; each turn but the last adds 8 bits. *)
Fixpoint huff_fill (turns f : nat) (h : huff) : T unit :=
  match turns with
  | O => tlift (Undef OutOfFuel)
  | S turns' =>
      bb <- bit_buf ;;
      nb <- num_bits ;;
      let temp := look_at h bb in
      enough <- (if temp >=? 0 then
                   tret (negb (Z.shiftr temp 9 =? 0) && (nb >=? Z.shiftr temp 9))
                 else if nb >? TINFL_FAST_LOOKUP_BITS then
                   t <- tlift (walk_some 16 h bb nb temp TINFL_FAST_LOOKUP_BITS) ;;
                   tret (t >=? 0)
                 else tret false) ;;
      if (enough : bool) then tret tt
      else
        c <- get_byte f ;;
        add_bits c 8 ;;;
        nb' <- num_bits ;;
        if nb' <? 15 then huff_fill turns' f h else tret tt
  end.
(** 497-501: table lookup and walk; the symbol (or table entry) and code length. *)
Fixpoint walk (turns : nat) (h : huff) (bb temp code_len : Z) : outcome (Z * Z) :=
  match turns with
  | O => Undef OutOfFuel
  | S turns' =>
      let* t := tree_at (hf_tree h) (- temp - 1 + Z.land (Z.shiftr bb code_len) 1) in
      if t <? 0 then walk turns' h bb t (code_len + 1) else Ok (t, code_len + 1)
  end.
(** 497-501, 657-678: lookup, then the walk for a negative entry *)
Definition huff_entry (h : huff) (bb : Z) : outcome (Z * Z) :=
  let temp := look_at h bb in
  if temp >=? 0 then Ok (temp, Z.shiftr temp 9)
  else walk 16 h bb temp TINFL_FAST_LOOKUP_BITS.
(** 488-501: TINFL_HUFF_DECODE *)
Definition huff_decode (f : nat) (h : huff) : T Z :=
  nb <- num_bits ;;
  (if nb <? 15 then
     fun s => match ti_in s with
              | a :: b :: t => (add_bits a 8 ;;; add_bits b 8) (set_in s t)
              | _ => huff_fill 16 f h s
              end
   else tret tt) ;;;
  bb <- bit_buf ;;
  e <- tlift (huff_entry h bb) ;;
  drop_bits (snd e) ;;;
  tret (if look_at h bb >=? 0 then Z.land (fst e) 511 else fst e).

(** 594-599: total_syms, next_code, total, used_syms *)
Definition count_size (sizes : list Z) (l : Z) : Z :=
  Z.of_nat (length (filter (Z.eqb l) sizes)).
(** 597-598: for (i = 1; i <= 15; ++i) *)
Fixpoint next_codes_loop (n : nat) (i : Z) (sizes : list Z) (total : Z) : list Z :=
  match n with
  | O => []
  | S n' => let total' := Z.shiftl (total + count_size sizes i) 1 in
            total' :: next_codes_loop n' (i + 1) sizes total'
  end.
(** 594-598: next_code[0..16] *)
Definition next_codes (sizes : list Z) : list Z := 0 :: 0 :: next_codes_loop 15 1 sizes 0.
(** 597: total after the loop *)
Definition total_code (sizes : list Z) : Z := nth 16 (next_codes sizes) 0.
(** 596-597: used_syms *)
Definition used_syms (sizes : list Z) : Z :=
  fold_left (fun a i => a + count_size sizes (Z.of_nat i)) (seq 1 15) 0.

(** State of the loop 604-619. *)
Record building := mk_building {
  b_next : list Z;    (* next_code *)
  b_look : arr;
  b_tree : arr;
  b_free : Z          (* tree_next *)
}.
(** 607: the reversed code *)
Fixpoint rev_code (l : nat) (code r : Z) : Z :=
  match l with
  | O => r
  | S l' => rev_code l' (Z.shiftr code 1) (Z.lor (Z.shiftl r 1) (Z.land code 1))
  end.
(** 608, 610: m_look_up[i] = x, 1024 cells *)
Definition look_put (t : arr) (i x : Z) : outcome arr :=
  if (0 <=? i) && (i <? 1024) then Ok (arr_set t i x) else Undef OutOfBounds.
(** 608: while (rev_code < TINFL_FAST_LOOKUP_SIZE) *)
Fixpoint fill_look (turns : nat) (look : arr) (r size k : Z) : outcome arr :=
  if r <? TINFL_FAST_LOOKUP_SIZE then
    match turns with
    | O => Undef OutOfFuel
    | S turns' => let* look' := look_put look r k in
                  fill_look turns' look' (r + Z.shiftl 1 size) size k
    end
  else Ok look.
(** 611-615: the inner loop over the code bits after the tenth but the last;
    [n] turns. *)
Fixpoint grow (n : nat) (r cur : Z) (b : building) : outcome (Z * Z * building) :=
  match n with
  | O => Ok (r, cur, b)
  | S n' =>
      let r' := Z.shiftr r 1 in
      let cur' := cur - Z.land r' 1 in
      let* x := tree_at (b_tree b) (- cur' - 1) in
      if x =? 0 then
        let* t := tree_put (b_tree b) (- cur' - 1) (b_free b) in
        grow n' r' (b_free b) (mk_building (b_next b) (b_look b) t (b_free b - 2))
      else grow n' r' x b
  end.
(** 604-618: one symbol *)
Definition add_symbol (sym size : Z) (b : building) : outcome building :=
  if size =? 0 then Ok b
  else
    let code := nth (Z.to_nat size) (b_next b) 0 in
    let next := nth_update (b_next b) (Z.to_nat size) (code + 1) in
    let r := rev_code (Z.to_nat size) code 0 in
    if size <=? TINFL_FAST_LOOKUP_BITS then
      let* look := fill_look 1024 (b_look b) r size (Z.lor (Z.shiftl size 9) sym) in
      Ok (mk_building next look (b_tree b) (b_free b))
    else
      let i := Z.land r (TINFL_FAST_LOOKUP_SIZE - 1) in
      let x := arr_get 0 (b_look b) i in
      let '(cur, b1) :=
        if x =? 0 then
          (b_free b, mk_building next (arr_set (b_look b) i (b_free b)) (b_tree b) (b_free b - 2))
        else (x, mk_building next (b_look b) (b_tree b) (b_free b)) in
      let* y := grow (Z.to_nat (size - (TINFL_FAST_LOOKUP_BITS + 1)))
                     (Z.shiftr r (TINFL_FAST_LOOKUP_BITS - 1)) cur b1 in
      let '(r2, cur2, b2) := y in
      let cur3 := cur2 - Z.land (Z.shiftr r2 1) 1 in
      let* t := tree_put (b_tree b2) (- cur3 - 1) sym in
      Ok (mk_building (b_next b2) (b_look b2) t (b_free b2)).
(** 604-618: for (tree_next = -1, sym_index = 0; ..) *)
Fixpoint add_symbols (sym : Z) (sizes : list Z) (b : building) : outcome building :=
  match sizes with
  | [] => Ok b
  | x :: t => let* b' := add_symbol sym x b in add_symbols (sym + 1) t b'
  end.
(** 590-619: one Huffman table from its code sizes; 600-603: a code that does not
    fill the space is refused unless it has at most one symbol. *)
Definition build_table (sizes : list Z) : T huff :=
  if negb (65536 =? total_code sizes) && (used_syms sizes >? 1) then tfail
  else
    b <- tlift (add_symbols 0 sizes (mk_building (next_codes sizes) arr_empty arr_empty (-1))) ;;
    tret (mk_huff (b_look b) (b_tree b)).

(** ** Code lengths of a dynamic block *)
(** 582-583: "\05\05\04", s_min_table_sizes; 510: s_length_dezigzag *)
Definition s_length_dezigzag : list Z :=
  [16; 17; 18; 0; 8; 7; 9; 6; 10; 5; 11; 4; 12; 3; 13; 2; 14; 1; 15].
(** 584: the lengths of the code length code *)
Fixpoint read_code_sizes (f : nat) (order : list Z) (sizes : list Z) : T (list Z) :=
  match order with
  | [] => tret sizes
  | i :: t => s <- get_bits f 3 ;;
              read_code_sizes f t (nth_update sizes (Z.to_nat i) s)
  end.
(** 620-631: the lengths themselves; m_len_codes has 457 cells. *)
Definition LEN_CODES_SIZE : Z := 457.
(** 620-631 *)
Fixpoint read_lengths (turns f : nat) (h : huff) (total : Z) (acc : list Z) : T (list Z) :=
  if len acc <? total then
    match turns with
    | O => tlift (Undef OutOfFuel)
    | S turns' =>
        dist <- huff_decode f h ;;
        if dist <? 16 then read_lengths turns' f h total (acc ++ [dist])
        else if (dist =? 16) && (len acc =? 0) then tfail
        else
          s <- get_bits f (nth (Z.to_nat (dist - 16)) [2; 3; 7] 0) ;;
          let n := s + nth (Z.to_nat (dist - 16)) [3; 3; 11] 0 in
          if len acc + n >? LEN_CODES_SIZE then tlift (Undef OutOfBounds)
          else read_lengths turns' f h total
                 (acc ++ zrepeat (if dist =? 16 then last acc 0 else 0) n)
    end
  else tret acc.

(** ** Copying *)
(** assignments pOut_buf_cur[i] = pSrc[i], one after the other *)
Fixpoint move_bytes (n : nat) (src dst : Z) (d : arr) : outcome arr :=
  match n with
  | O => Ok d
  | S n' => let* x := dict_get d src in
            let* d' := dict_put d dst x in
            move_bytes n' (src + 1) (dst + 1) d'
  end.
(** 720-721: a 32-bit load followed by a 32-bit store *)
Definition move_word (src dst : Z) (d : arr) : outcome arr :=
  let* a := dict_get d src in
  let* b := dict_get d (src + 1) in
  let* c := dict_get d (src + 2) in
  let* e := dict_get d (src + 3) in
  let* d1 := dict_put d dst a in
  let* d2 := dict_put d1 (dst + 1) b in
  let* d3 := dict_put d2 (dst + 2) c in
  dict_put d3 (dst + 3) e.
(** 717-723: eight bytes a turn *)
Fixpoint move_blocks (n : nat) (src dst : Z) (d : arr) : outcome arr :=
  match n with
  | O => Ok d
  | S n' => let* d1 := move_word src dst d in
            let* d2 := move_word (src + 4) (dst + 4) d1 in
            move_blocks n' (src + 8) (dst + 8) d2
  end.
(** 737-750: three bytes a turn, at least one turn, then what is left; so at least
    three bytes are moved. Result: the window and the new position. *)
Definition move_threes (counter src dst : Z) (d : arr) : outcome (arr * Z) :=
  let n := if counter <? 3 then 3 else counter in
  let* d' := move_bytes (Z.to_nat n) src dst d in Ok (d', dst + n).
(** 715-750: a copy that stays inside the window *)
Definition copy_fast (counter dist src dst : Z) (d : arr) : outcome (arr * Z) :=
  if (counter >=? 9) && (counter <=? dist) then
    let b := Z.shiftr counter 3 in
    let* d1 := move_blocks (Z.to_nat b) src dst d in
    let r := Z.land counter 7 in
    if r <? 3 then
      let* d2 := move_bytes (Z.to_nat r) (src + 8 * b) (dst + 8 * b) d1 in
      Ok (d2, dst + 8 * b + r)
    else move_threes r (src + 8 * b) (dst + 8 * b) d1
  else move_threes counter src dst d.
(** 706-712: byte by byte, waiting for room *)
Fixpoint copy_slow (n : nat) (f : nat) (dist from : Z) : T unit :=
  match n with
  | O => tret tt
  | S n' =>
      wait_room f ;;;
      (fun s => match dict_get (ti_dict s) (Z.land (from - dist) (TINFL_LZ_DICT_SIZE - 1)) with
                | Ok x => store x s
                | Undef u => RUndef u
                | _ => RFailed s
                end) ;;;
      copy_slow n' f dist (from + 1)
  end.
(** 697-750 *)
Definition do_copy (f : nat) (counter dist : Z) : T unit := fun s =>
  let from := ti_cur s in
  let src := Z.land (from - dist) (TINFL_LZ_DICT_SIZE - 1) in
  if Z.max (ti_cur s) src + counter >? TINFL_LZ_DICT_SIZE
  then copy_slow (Z.to_nat counter) f dist from s
  else (x <- tlift (copy_fast counter dist src (ti_cur s) (ti_dict s)) ;;
        fun s' => RDone tt (set_out s' (fst x) (snd x))) s.

(** ** Compressed data *)
(** 505-509 *)
Definition s_length_base : list Z :=
  [3;4;5;6;7;8;9;10;11;13;15;17;19;23;27;31;35;43;51;59;67;83;99;115;131;163;195;227;258;0;0].
(** 506 *)
Definition s_length_extra : list Z :=
  [0;0;0;0;0;0;0;0;1;1;1;1;2;2;2;2;3;3;3;3;4;4;4;4;5;5;5;5;0;0;0].
(** 507-508 *)
Definition s_dist_base : list Z :=
  [1;2;3;4;5;7;9;13;17;25;33;49;65;97;129;193;257;385;513;769;1025;1537;2049;3073;4097;6145;
   8193;12289;16385;24577;0;0].
(** 509 *)
Definition s_dist_extra : list Z :=
  [0;0;0;0;1;1;2;2;3;3;4;4;5;5;6;6;7;7;8;8;9;9;10;10;11;11;12;12;13;13;0;0].
(** 690, 694: s_length_base[..] and the others, bound-checked *)
Definition table_at (t : list Z) (i : Z) : outcome Z :=
  match znth t i with Some x => Ok x | None => Undef OutOfBounds end.

(** 686-695: the rest of a match after its length symbol *)
Definition do_match (f : nat) (h1 : huff) (sym : Z) : T unit :=
  lx <- tlift (table_at s_length_extra (sym - 257)) ;;
  lb <- tlift (table_at s_length_base (sym - 257)) ;;
  le <- (if lx =? 0 then tret 0 else get_bits f lx) ;;
  dsym <- huff_decode f h1 ;;
  dx <- tlift (table_at s_dist_extra dsym) ;;
  db <- tlift (table_at s_dist_base dsym) ;;
  de <- (if dx =? 0 then tret 0 else get_bits f dx) ;;
  do_copy f (lb + le) (db + de).

(** 653: MZ_READ_LE32 *)
Definition take_word : T unit := fun s =>
  match ti_in s with
  | a :: b :: c :: d :: t =>
      add_bits (a + 256 * b + 65536 * c + 16777216 * d) 32 (set_in s t)
  | _ => RUndef OutOfBounds
  end.
(** 657-665, 671-678: a table entry in the fast loop *)
Definition fast_entry (h : huff) : T Z :=
  bb <- bit_buf ;;
  e <- tlift (huff_entry h bb) ;;
  drop_bits (snd e) ;;;
  tret (fst e).
(** 636-751: literals and matches until the end-of-block symbol. *)
Fixpoint codes (turns f : nat) (h0 h1 : huff) : T unit :=
  match turns with
  | O => tlift (Undef OutOfFuel)
  | S turns' =>
      let after sym :=
        if Z.land sym 511 =? 256 then tret tt
        else do_match f h1 (Z.land sym 511) ;;; codes turns' f h0 h1 in
      fun s =>
      if (len (ti_in s) <? 4) || (TINFL_LZ_DICT_SIZE - ti_cur s <? 2) then
        (c <- huff_decode f h0 ;;
         if c >=? 256 then after c
         else put_byte f (u8 c) ;;; codes turns' f h0 h1) s
      else
        (nb <- num_bits ;;
         (if nb <? 30 then take_word else tret tt) ;;;
         c <- fast_entry h0 ;;
         if negb (Z.land c 256 =? 0) then after c
         else
           c2 <- fast_entry h0 ;;
           store (u8 c) ;;;
           if negb (Z.land c2 256 =? 0) then after c2
           else store (u8 c2) ;;; codes turns' f h0 h1) s
  end.

(** ** Blocks *)
(** 541-544: the four length bytes of a stored block *)
Definition raw_byte (f : nat) : T Z :=
  nb <- num_bits ;; if nb =? 0 then get_byte f else get_bits f 8.
(** 546-552: bytes still in the bit buffer *)
Fixpoint stored_bits (turns f : nat) (counter : Z) : T Z :=
  nb <- num_bits ;;
  if (counter =? 0) || (nb =? 0) then tret counter
  else match turns with
       | O => tlift (Undef OutOfFuel)
       | S turns' =>
           c <- get_bits f 8 ;;
           put_byte f c ;;;
           stored_bits turns' f (counter - 1)
       end.
(** 556-564: while (pIn_buf_cur >= pIn_buf_end) *)
Fixpoint wait_input (f : nat) : T unit := fun s =>
  match ti_in s with
  | [] => match f with O => RUndef OutOfFuel | S f' => RNeed s (wait_input f') end
  | _ => RDone tt s
  end.
(** 566: memcpy into the window *)
Fixpoint write_all (d : arr) (i : Z) (l : bytes) : arr :=
  match l with [] => d | x :: t => write_all (arr_set d i x) (i + 1) t end.
(** 553-568: whole runs by memcpy *)
Fixpoint stored_bytes (turns f : nat) (counter : Z) : T unit :=
  if counter =? 0 then tret tt
  else match turns with
       | O => tlift (Undef OutOfFuel)
       | S turns' =>
           wait_room f ;;;
           wait_input f ;;;
           fun s =>
             let n := Z.min (Z.min (TINFL_LZ_DICT_SIZE - ti_cur s) (len (ti_in s))) counter in
             if (n <? 0) || (ti_cur s <? 0) || (ti_cur s + n >? TINFL_LZ_DICT_SIZE) || (n >? len (ti_in s)) then RUndef OutOfBounds else
             stored_bytes turns' f (counter - n)
               (mk_tst (zdrop n (ti_in s)) (ti_bb s) (ti_nb s)
                       (write_all (ti_dict s) (ti_cur s) (ztake n (ti_in s))) (ti_cur s + n))
       end.
(** 541-568 *)
Definition stored_block (turns f : nat) : T unit :=
  nb <- num_bits ;;
  get_bits f (Z.land nb 7) ;;;
  a <- raw_byte f ;;
  b <- raw_byte f ;;
  c <- raw_byte f ;;
  d <- raw_byte f ;;
  let counter := Z.lor a (Z.shiftl b 8) in
  if negb (counter =? Z.lxor 0xFFFF (Z.lor c (Z.shiftl d 8))) then tfail
  else
    counter' <- stored_bits turns f counter ;;
    stored_bytes turns f counter'.
(** 576-579 *)
Definition static_sizes : list Z :=
  repeat 8 144 ++ repeat 9 112 ++ repeat 7 24 ++ repeat 8 8.
(** 575-579, then 590-619 for both tables and 636-751 *)
Definition fixed_block (turns f : nat) : T unit :=
  h1 <- build_table (repeat 5 32) ;;
  h0 <- build_table static_sizes ;;
  codes turns f h0 h1.
(** 580-631, then 636-751 *)
Definition dynamic_block (turns f : nat) : T unit :=
  a <- get_bits f 5 ;;
  b <- get_bits f 5 ;;
  c <- get_bits f 4 ;;
  let n0 := a + 257 in
  let n1 := b + 1 in
  cl <- read_code_sizes f (ztake (c + 4) s_length_dezigzag) (repeat 0 19) ;;
  h2 <- build_table cl ;;
  l <- read_lengths 320 f h2 (n0 + n1) [] ;;
  if negb (n0 + n1 =? len l) then tfail
  else
    h1 <- build_table (zdrop n0 l) ;;
    h0 <- build_table (ztake n0 l) ;;
    codes turns f h0 h1.

(** 537-751: the block loop *)
Fixpoint blocks (n turns f : nat) : T unit :=
  match n with
  | O => tlift (Undef OutOfFuel)
  | S n' =>
      x <- get_bits f 3 ;;
      let type := Z.shiftr x 1 in
      (if type =? 0 then stored_block turns f
       else if type =? 3 then tfail
       else if type =? 1 then fixed_block turns f
       else dynamic_block turns f) ;;;
      if Z.land x 1 =? 0 then blocks n' turns f else tret tt
  end.

(** ** mz_inflate *)
Inductive tstatus := T_DONE | T_NEEDS_MORE_INPUT | T_HAS_MORE_OUTPUT | T_FAILED.
(** Helper: == on statuses. *)
Definition tstatus_eqb (a b : tstatus) : bool :=
  match a, b with
  | T_DONE, T_DONE | T_NEEDS_MORE_INPUT, T_NEEDS_MORE_INPUT
  | T_HAS_MORE_OUTPUT, T_HAS_MORE_OUTPUT | T_FAILED, T_FAILED => true
  | _, _ => false
  end.
(** 243-249: inflate_state; [is_go] is the coroutine (m_decomp.m_state and the values
    it keeps). *)
Record inflate_state := mk_inflate {
  is_go : tst -> res unit;
  is_bb : Z;
  is_nb : Z;
  is_dict : arr;
  is_ofs : Z;           (* m_dict_ofs *)
  is_avail : Z;         (* m_dict_avail *)
  is_last : tstatus     (* m_last_status *)
}.
(** 251-280, 781: mz_inflateInit2, tinfl_init *)
Definition new_inflate (fuel : nat) : inflate_state :=
  mk_inflate (blocks fuel fuel fuel) 0 0 arr_empty 0 0 T_NEEDS_MORE_INPUT.

(** 507-777: one call of tinfl_decompress: status, input left, bytes produced. *)
Definition decompress (st : inflate_state) (input : bytes)
  : outcome (tstatus * bytes * Z * inflate_state) :=
  let finish status s go :=
    Ok (status, ti_in s, ti_cur s - is_ofs st,
        mk_inflate go (ti_bb s) (ti_nb s) (ti_dict s) (is_ofs st) (is_avail st) status) in
  match is_go st (mk_tst input (is_bb st) (is_nb st) (is_dict st) (is_ofs st)) with
  | RDone _ s => finish T_DONE s (fun s' => RDone tt s')
  | RNeed s k => finish T_NEEDS_MORE_INPUT s k
  | RMore s k => finish T_HAS_MORE_OUTPUT s k
  | RFailed s => finish T_FAILED s (fun s' => RFailed s')
  | RUndef u => Undef u
  end.

(** src/miniz/miniz.h: enum of return codes; also the next three *)
Definition MZ_OK : Z := 0.
(** src/miniz/miniz.h: MZ_STREAM_END *)
Definition MZ_STREAM_END : Z := 1.
(** src/miniz/miniz.h: MZ_DATA_ERROR *)
Definition MZ_DATA_ERROR : Z := -3.
(** src/miniz/miniz.h: MZ_BUF_ERROR *)
Definition MZ_BUF_ERROR : Z := -5.

(** 331-333, 355-356: the bytes memcpy takes from m_dict + m_dict_ofs *)
Fixpoint dict_bytes (n : nat) (d : arr) (i : Z) : bytes :=
  match n with
  | O => []
  | S n' => arr_get 0 d i :: dict_bytes n' d (i + 1)
  end.
(** 331-333, 355-356: the same memcpy: all its cells must be in the window, and written.
    Otherwise the behaviour is undefined; [None] means it is not. *)
Fixpoint memcpy_fault (n : nat) (d : arr) (i : Z) : option ub :=
  match n with
  | O => None
  | S n' => match dict_get d i with Undef u => Some u | _ => memcpy_fault n' d (i + 1) end
  end.
(** 331-336, 355-359: n = min(m_dict_avail, avail_out) bytes are handed out. *)
Definition handed_out (st : inflate_state) (avail_out : Z) : bytes * inflate_state :=
  let n := Z.min (is_avail st) avail_out in
  (dict_bytes (Z.to_nat n) (is_dict st) (is_ofs st),
   mk_inflate (is_go st) (is_bb st) (is_nb st) (is_dict st)
              (Z.land (is_ofs st + n) (TINFL_LZ_DICT_SIZE - 1)) (is_avail st - n) (is_last st)).
(** 331-336, 355-359: the same, if the memcpy is one that may be done *)
Definition hand_out (st : inflate_state) (avail_out : Z) : outcome (bytes * inflate_state) :=
  if Z.min (is_avail st) avail_out <? 0 then Undef OutOfBounds else
  match memcpy_fault (Z.to_nat (Z.min (is_avail st) avail_out)) (is_dict st) (is_ofs st) with
  | Some u => Undef u
  | None => Ok (handed_out st avail_out)
  end.

(** 344-373: the loop; result: return code, input left, bytes written. *)
Fixpoint inflate_loop (turns : nat) (st : inflate_state) (had_input : bool)
    (input : bytes) (avail_out : Z) (written : bytes)
  : outcome (Z * bytes * bytes * inflate_state) :=
  match turns with
  | O => Undef OutOfFuel
  | S turns' =>
      let* x := decompress st input in
      let '(status, input1, n, st1) := x in
      let* y := hand_out (mk_inflate (is_go st1) (is_bb st1) (is_nb st1) (is_dict st1)
                                     (is_ofs st1) n (is_last st1)) avail_out in
      let (o, st2) := y in
      let avail_out1 := avail_out - len o in
      let written1 := written ++ o in
      if tstatus_eqb status T_FAILED then Ok (MZ_DATA_ERROR, input1, written1, st2)
      else if tstatus_eqb status T_NEEDS_MORE_INPUT && negb had_input
           then Ok (MZ_BUF_ERROR, input1, written1, st2)
      else if tstatus_eqb status T_DONE || (match input1 with [] => true | _ => false end)
              || (avail_out1 =? 0) || negb (is_avail st2 =? 0)
           then Ok (if tstatus_eqb status T_DONE && (is_avail st2 =? 0) then MZ_STREAM_END
                    else MZ_OK, input1, written1, st2)
      else inflate_loop turns' st2 had_input input1 avail_out1 written1
  end.
(** 287-376: mz_inflate(pStream, MZ_NO_FLUSH) *)
Definition mz_inflate (turns : nat) (st : inflate_state) (input : bytes) (avail_out : Z)
  : outcome (Z * bytes * bytes * inflate_state) :=
  if tstatus_eqb (is_last st) T_FAILED then Ok (MZ_DATA_ERROR, input, [], st)
  else if negb (is_avail st =? 0) then
    let* y := hand_out st avail_out in
    let (o, st1) := y in
    Ok (if tstatus_eqb (is_last st1) T_DONE && (is_avail st1 =? 0) then MZ_STREAM_END
        else MZ_OK, input, o, st1)
  else inflate_loop turns st (match input with [] => false | _ => true end) input avail_out [].

(** ** npy_inflate *)
(** src/zip.cpp 127-151: call inflate until it leaves output space. *)
Fixpoint inflate_chunk (turns loops : nat) (st : inflate_state) (input : bytes) (output : bytes)
  : outcome (Z * bytes * inflate_state) :=
  match turns with
  | O => Undef OutOfFuel
  | S turns' =>
      let* x := mz_inflate loops st input CHUNK in
      let '(ret, input1, o, st1) := x in
      if ret =? MZ_DATA_ERROR then Throw RuntimeError
      else if CHUNK - len o =? 0 then inflate_chunk turns' loops st1 input1 (output ++ o)
      else Ok (ret, output ++ o, st1)
  end.
(** src/zip.cpp 112-160: chunk by chunk; [ret] is the last return code. *)
Fixpoint inflate_chunks (turns loops : nat) (st : inflate_state) (ret : Z) (input : bytes)
    (output : bytes) : outcome bytes :=
  match input with
  | [] => if ret =? MZ_STREAM_END then Ok output else Throw RuntimeError
  | _ =>
      match turns with
      | O => Undef OutOfFuel
      | S turns' =>
          let* x := inflate_chunk loops loops st (ztake CHUNK input) output in
          let '(ret1, output1, st1) := x in
          if ret1 =? MZ_STREAM_END then Ok output1
          else inflate_chunks turns' loops st1 ret1 (zdrop CHUNK input) output1
      end
  end.
(** src/zip.cpp 91-161, with [fuel] bounding every loop. *)
Definition npy_inflate_upto (fuel : nat) (z : bytes) : outcome bytes :=
  inflate_chunks fuel fuel (new_inflate fuel) MZ_OK z [].
(** A bound on the iterations of every loop (model only). C50 shows it is enough for valid streams. *)
Definition inflate_fuel (z : bytes) : nat := (8 * length z + 16)%nat.
(** src/zip.cpp 91-161 *)
Definition npy_inflate (z : bytes) : outcome bytes := npy_inflate_upto (inflate_fuel z) z.
