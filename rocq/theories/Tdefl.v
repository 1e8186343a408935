(** Compression: src/miniz/miniz.cpp 138-185 and 850-1784, src/zip.cpp 28-89, for the
    only way libnpy calls it: raw DEFLATE (window bits -15), level -1 (1862-1873: 128
    probes and greedy parsing, so m_saved_match_len stays 0 and the lazy branches
    1636-1658, 1667-1670 are dead), default strategy, no put-buffer callback.  Build
    options as in Tinfl.v.  Left out: the Adler-32 of the input (computed, unused for
    raw streams) and the internal MZ_ASSERTs (see TdeflAsserts.v).  The words of 1121 and 1168 are as on a
    little-endian host; for the other kind see BigHost.v. *)
From Coq Require Import ZArith List Bool Lia.
From Verif Require Import Base Arr Tinfl.
Import ListNotations.
Open Scope Z_scope.

(** src/miniz/miniz.h 889, 895 *)
Definition TDEFL_LZ_DICT_SIZE : Z := 32768.
(** src/miniz/miniz.h 889 *)
Definition DICT_MASK : Z := 32767.
(** src/miniz/miniz.h 889 *)
Definition MIN_MATCH_LEN : Z := 3.
(** src/miniz/miniz.h 889 *)
Definition MAX_MATCH_LEN : Z := 258.
(** src/miniz/miniz.h 895 *)
Definition LZ_CODE_BUF_SIZE : Z := 65536.
(** src/miniz/miniz.h 895: (TDEFL_LZ_CODE_BUF_SIZE * 13) / 10 *)
Definition OUT_BUF_SIZE : Z := 85196.
(** src/miniz/miniz.h 895 *)
Definition HASH_SHIFT : Z := 5.
(** src/miniz/miniz.h 895 *)
Definition HASH_SIZE : Z := 32768.
(** 1251: m_pOutput_buf_end - m_pOutput_buf at the start of a block *)
Definition OUT_LIMIT : Z := OUT_BUF_SIZE - 16.
(** 1783: m_max_probes[0] = 1 + (128 + 2) / 3; find_match is always entered with a
    match length of 2, so m_max_probes[1] is not used *)
Definition MAX_PROBES : nat := 44.

(** ** Tables 850-898, in runs *)
Fixpoint runs (l : list (Z * nat)) : list Z :=
  match l with [] => [] | (x, n) :: t => repeat x n ++ runs t end.
(** 850-858 *)
Definition s_tdefl_len_sym : list Z :=
  runs [(257,1%nat);(258,1%nat);(259,1%nat);(260,1%nat);(261,1%nat);(262,1%nat);(263,1%nat);
        (264,1%nat);(265,2%nat);(266,2%nat);(267,2%nat);(268,2%nat);(269,4%nat);(270,4%nat);
        (271,4%nat);(272,4%nat);(273,8%nat);(274,8%nat);(275,8%nat);(276,8%nat);(277,16%nat);
        (278,16%nat);(279,16%nat);(280,16%nat);(281,32%nat);(282,32%nat);(283,32%nat);
        (284,31%nat);(285,1%nat)].
(** 859-865 *)
Definition s_tdefl_len_extra : list Z :=
  runs [(0,8%nat);(1,8%nat);(2,16%nat);(3,32%nat);(4,64%nat);(5,127%nat);(0,1%nat)].
(** 866-878 *)
Definition s_tdefl_small_dist_sym : list Z :=
  runs [(0,1%nat);(1,1%nat);(2,1%nat);(3,1%nat);(4,2%nat);(5,2%nat);(6,4%nat);(7,4%nat);
        (8,8%nat);(9,8%nat);(10,16%nat);(11,16%nat);(12,32%nat);(13,32%nat);(14,64%nat);
        (15,64%nat);(16,128%nat);(17,128%nat)].
(** 879-888 *)
Definition s_tdefl_small_dist_extra : list Z :=
  runs [(0,4%nat);(1,4%nat);(2,8%nat);(3,16%nat);(4,32%nat);(5,64%nat);(6,128%nat);(7,256%nat)].
(** 889-893 *)
Definition s_tdefl_large_dist_sym : list Z :=
  runs [(0,2%nat);(18,1%nat);(19,1%nat);(20,2%nat);(21,2%nat);(22,4%nat);(23,4%nat);(24,8%nat);
        (25,8%nat);(26,16%nat);(27,16%nat);(28,32%nat);(29,32%nat)].
(** 894-898 *)
Definition s_tdefl_large_dist_extra : list Z :=
  runs [(0,2%nat);(8,2%nat);(9,4%nat);(10,8%nat);(11,16%nat);(12,32%nat);(13,64%nat)].
(** Helper: t[i]; every index used is inside the table (proved where it matters). *)
Definition at_index (t : list Z) (i : Z) : Z := nth (Z.to_nat i) t 0.
(** 1571-1572, 1127-1134: the distance symbol and its extra bits, of distance - 1 *)
Definition dist_sym (v : Z) : Z :=
  if v <? 512 then at_index s_tdefl_small_dist_sym (Z.land v 511)
  else at_index s_tdefl_large_dist_sym (Z.shiftr v 8).
(** 1127-1134: the number of extra bits *)
Definition dist_extra (v : Z) : Z :=
  if v <? 512 then at_index s_tdefl_small_dist_extra (Z.land v 511)
  else at_index s_tdefl_large_dist_extra (Z.shiftr v 8).

(** ** Huffman codes *)
(** 901: tdefl_sym_freq: key and symbol *)
Definition sym_freq : Type := (Z * Z)%type.
(** 902-917: one pass of the radix sort: stable distribution by a byte of the key.
    Simplified: the offsets computed from the histogram are the bucket boundaries. *)
Definition radix_pass (shift : Z) (l : list sym_freq) : list sym_freq :=
  flat_map (fun b => filter (fun x => Z.land (Z.shiftr (fst x) shift) 255 =? Z.of_nat b) l)
           (seq 0 256).
(** 905-906: the second pass is left out when every high byte is 0 *)
Definition radix_sort_syms (l : list sym_freq) : list sym_freq :=
  let l1 := radix_pass 0 l in
  if forallb (fun x => Z.land (Z.shiftr (fst x) 8) 255 =? 0) l then l1 else radix_pass 8 l1.

(** Array cells with bound checks; A has n cells of 16 bits. *)
Definition key_at (n : Z) (A : arr) (i : Z) : outcome Z :=
  if (0 <=? i) && (i <? n) then Ok (arr_get 0 A i) else Undef OutOfBounds.
(** A[i].m_key = x (mz_uint16) *)
Definition key_put (n : Z) (A : arr) (i x : Z) : outcome arr :=
  if (0 <=? i) && (i <? n) then Ok (arr_set A i (u16 x)) else Undef OutOfBounds.
(** 927: take the smaller of internal node [root] and leaf [leaf]; 928 also asks
    root < next ([check]).  [acc]: A[next] becomes acc + the key taken. *)
Definition take_smaller (n : Z) (check : bool) (acc next : Z) (st : arr * Z * Z)
  : outcome (arr * Z * Z) :=
  let '(A, root, leaf) := st in
  let* inner :=
    (if leaf >=? n then Ok true
     else if check && negb (root <? next) then Ok false
     else let* a := key_at n A root in
          let* b := key_at n A leaf in Ok (a <? b)) in
  if (inner : bool) then
    let* a := key_at n A root in
    let* A1 := key_put n A next (acc + a) in
    let* A2 := key_put n A1 root next in
    Ok (A2, root + 1, leaf)
  else
    let* b := key_at n A leaf in
    let* A1 := key_put n A next (acc + b) in
    Ok (A1, root, leaf + 1).
(** 925-929 *)
Fixpoint merge_loop (turns : nat) (n next : Z) (st : arr * Z * Z) : outcome arr :=
  if next <? n - 1 then
    match turns with
    | O => Undef OutOfFuel
    | S turns' =>
        let* st1 := take_smaller n false 0 next st in
        let* x := key_at n (fst (fst st1)) next in
        let* st2 := take_smaller n true x next st1 in
        merge_loop turns' n (next + 1) st2
    end
  else Ok (fst (fst st)).
(** 930: for (next = n-3; next >= 0; next--) *)
Fixpoint depth_loop (turns : nat) (n next : Z) (A : arr) : outcome arr :=
  if next >=? 0 then
    match turns with
    | O => Undef OutOfFuel
    | S turns' =>
        let* p := key_at n A next in
        let* x := key_at n A p in
        let* A1 := key_put n A next (x + 1) in
        depth_loop turns' n (next - 1) A1
    end
  else Ok A.
(** 934: while (root >= 0 && A[root].m_key == dpth) *)
Fixpoint count_used (turns : nat) (n : Z) (A : arr) (dpth root used : Z) : outcome (Z * Z) :=
  if root >=? 0 then
    let* x := key_at n A root in
    if x =? dpth then
      match turns with
      | O => Undef OutOfFuel
      | S turns' => count_used turns' n A dpth (root - 1) (used + 1)
      end
    else Ok (root, used)
  else Ok (root, used).
(** 935: while (avbl > used) *)
Fixpoint set_leaves (turns : nat) (n : Z) (A : arr) (dpth avbl used next : Z) : outcome (arr * Z) :=
  if avbl >? used then
    match turns with
    | O => Undef OutOfFuel
    | S turns' =>
        let* A1 := key_put n A next dpth in
        set_leaves turns' n A1 dpth (avbl - 1) used (next - 1)
    end
  else Ok (A, next).
(** 932-937 *)
Fixpoint leaf_loop (turns : nat) (n : Z) (A : arr) (avbl dpth root next : Z) : outcome arr :=
  if avbl >? 0 then
    match turns with
    | O => Undef OutOfFuel
    | S turns' =>
        let* x := count_used (S (Z.to_nat n)) n A dpth root 0 in
        let* y := set_leaves (S (Z.to_nat n)) n A dpth avbl (snd x) next in
        leaf_loop turns' n (fst y) (2 * snd x) (dpth + 1) (fst x) (snd y)
    end
  else Ok A.
(** 919-938: tdefl_calculate_minimum_redundancy, on the keys *)
Definition minimum_redundancy (n : Z) (A : arr) : outcome arr :=
  if n =? 0 then Ok A
  else if n =? 1 then key_put n A 0 1
  else
    let t := Z.to_nat n in
    let* a := key_at n A 0 in
    let* b := key_at n A 1 in
    let* A1 := key_put n A 0 (a + b) in
    let* A2 := merge_loop t n 1 (A1, 0, 2) in
    let* A3 := key_put n A2 (n - 2) 0 in
    let* A4 := depth_loop t n (n - 3) A3 in
    leaf_loop (S t) n A4 1 0 (n - 2) (n - 1).

(** Helper: the sorted keys as the array A. *)
Fixpoint keys_to_arr (i : Z) (l : list Z) (A : arr) : arr :=
  match l with [] => A | x :: t => keys_to_arr (i + 1) t (arr_set A i x) end.
(** Helper: A back as a list. *)
Fixpoint arr_to_keys (n : nat) (i : Z) (A : arr) : list Z :=
  match n with O => [] | S n' => arr_get 0 A i :: arr_to_keys n' (i + 1) A end.

(** 940-953: num_codes as a list of 33 counts *)
Definition MAX_SUPPORTED : Z := 32.
(** 950, 960: num_codes[i] += x *)
Definition bump (l : list Z) (i x : Z) : list Z :=
  nth_update l (Z.to_nat i) (at_index l i + x).
(** 950: the inner for loop, from i down to 1 *)
Fixpoint split_code (i : nat) (num : list Z) : list Z :=
  match i with
  | O => num
  | S i' => if at_index num (Z.of_nat i) =? 0 then split_code i' num
            else bump (bump num (Z.of_nat i) (-1)) (Z.of_nat i + 1) 2
  end.
(** 947-952: while (total != (1UL << max_code_size)) *)
Fixpoint enforce_loop (turns : nat) (limit : Z) (num : list Z) (total : Z) : outcome (list Z) :=
  if total =? Z.shiftl 1 limit then Ok num
  else match turns with
       | O => Undef OutOfFuel
       | S turns' =>
           enforce_loop turns' limit (split_code (Z.to_nat (limit - 1)) (bump num limit (-1)))
                        (u32 (total - 1))
       end.
(** 945: the counts beyond the limit *)
Definition sum_from (num : list Z) (from : Z) : Z :=
  fold_left Z.add (skipn (Z.to_nat from) num) 0.
(** 946: total += num_codes[i] << (max_code_size - i) *)
Fixpoint weigh (i : nat) (limit : Z) (num : list Z) : Z :=
  match i with
  | O => 0
  | S i' => Z.shiftl (at_index num (Z.of_nat i)) (limit - Z.of_nat i) + weigh i' limit num
  end.
(** 941-953: tdefl_huffman_enforce_max_code_size *)
Definition enforce_max_code_size (num : list Z) (list_len limit : Z) : outcome (list Z) :=
  if list_len <=? 1 then Ok num
  else
    let num1 := bump num limit (sum_from num (limit + 1)) in
    enforce_loop 512 limit num1 (u32 (weigh (Z.to_nat limit) limit num1)).

(** 977: next_code[] for sizes 1 .. limit *)
Fixpoint huff_next (n : nat) (i : Z) (num : list Z) (j : Z) : list Z :=
  match n with
  | O => []
  | S n' => let j' := Z.shiftl (j + at_index num (i - 1)) 1 in
            j' :: huff_next n' (i + 1) num j'
  end.
(** 979-984: the codes, bit-reversed *)
Fixpoint assign_codes (sizes next : list Z) : list Z :=
  match sizes with
  | [] => []
  | s :: t =>
      if s =? 0 then 0 :: assign_codes t next
      else let code := at_index next s in
           u16 (rev_code (Z.to_nat s) code 0) :: assign_codes t (bump next s 1)
  end.
(** 977-984: next_code[], then the reversed codes *)
Definition codes_of (num sizes : list Z) (limit : Z) : list Z :=
  assign_codes sizes (0 :: 0 :: huff_next (Z.to_nat (limit - 1)) 2 num 0).

(** 959-960: num_codes[..]++ *)
Fixpoint count_sizes (l : list Z) (num : list Z) : outcome (list Z) :=
  match l with
  | [] => Ok num
  | x :: t => if (0 <=? x) && (x <=? MAX_SUPPORTED) then count_sizes t (bump num x 1)
              else Undef OutOfBounds
  end.
(** 965-966: the symbols that occur *)
Fixpoint used_list (i : Z) (counts : list Z) : list sym_freq :=
  match counts with
  | [] => []
  | c :: t => if c =? 0 then used_list (i + 1) t else (c, i) :: used_list (i + 1) t
  end.
(** 972-974: hand the sizes out, most frequent symbol (last in the list) first; the
    list here is reversed, so --j is its head *)
Fixpoint give_size (l : nat) (size : Z) (rsyms : list sym_freq) (sizes : list Z)
  : outcome (list sym_freq * list Z) :=
  match l with
  | O => Ok (rsyms, sizes)
  | S l' =>
      match rsyms with
      | [] => Undef OutOfBounds
      | (_, sym) :: t => give_size l' size t (nth_update sizes (Z.to_nat sym) size)
      end
  end.
(** 972-974: for (i = 1, j = num_used_syms; i <= code_size_limit; i++) *)
Fixpoint give_sizes (turns : nat) (i : Z) (num : list Z) (rsyms : list sym_freq) (sizes : list Z)
  : outcome (list Z) :=
  match turns with
  | O => Ok sizes
  | S turns' =>
      let* x := give_size (Z.to_nat (at_index num i)) i rsyms sizes in
      give_sizes turns' (i + 1) num (fst x) (snd x)
  end.
(** 954-985: tdefl_optimize_huffman_table: code sizes and codes *)
Definition optimize_table (counts : list Z) (limit : Z) : outcome (list Z * list Z) :=
  let used := used_list 0 counts in
  let n := len used in
  let syms := radix_sort_syms used in
  let* A := minimum_redundancy n (keys_to_arr 0 (map fst syms) arr_empty) in
  let* num0 := count_sizes (arr_to_keys (length syms) 0 A) (repeat 0 33) in
  let* num := enforce_max_code_size num0 n limit in
  let* sizes := give_sizes (Z.to_nat limit) 1 num (rev syms) (map (fun _ => 0) counts) in
  Ok (sizes, codes_of num sizes limit).
(** 958-961, 977-984: tdefl_optimize_huffman_table with static_table *)
Definition static_table (sizes : list Z) (limit : Z) : outcome (list Z * list Z) :=
  let* num := count_sizes sizes (repeat 0 33) in
  Ok (sizes, codes_of num sizes limit).

(** ** Output *)
(** m_pOutput_buf (bytes written since the start of the block, last first, and their
    number), m_bit_buffer, m_bits_in *)
Record obuf := mk_obuf { ob_rev : bytes; ob_n : Z; ob_bb : Z; ob_nb : Z }.
(** 992-997: while (d->m_bits_in >= 8); a byte past the end of the buffer is dropped *)
Fixpoint drain (turns : nat) (o : obuf) : obuf :=
  if ob_nb o >=? 8 then
    match turns with
    | O => o
    | S turns' =>
        drain turns'
          (if ob_n o <? OUT_LIMIT
           then mk_obuf (u8 (ob_bb o) :: ob_rev o) (ob_n o + 1) (Z.shiftr (ob_bb o) 8) (ob_nb o - 8)
           else mk_obuf (ob_rev o) (ob_n o) (Z.shiftr (ob_bb o) 8) (ob_nb o - 8))
    end
  else o.
(** 989-998: TDEFL_PUT_BITS; at most 7 + 16 bits are in the buffer *)
Definition put_bits (b l : Z) (o : obuf) : obuf :=
  drain 4 (mk_obuf (ob_rev o) (ob_n o)
                   (Z.lor (ob_bb o) (u32 (Z.shiftl b (ob_nb o)))) (ob_nb o + l)).
(** 1082 and others: if (d->m_bits_in) TDEFL_PUT_BITS(0, 8 - d->m_bits_in) *)
Definition pad_byte (o : obuf) : obuf :=
  if ob_nb o =? 0 then o else put_bits 0 (8 - ob_nb o) o.

(** 1000-1017: run-length coding of the code lengths; [packed] is
    packed_code_sizes, last first *)
Record rle := mk_rle { r_packed : list Z; r_count : list Z; r_z : Z; r_rep : Z }.
(** 1000-1007: TDEFL_RLE_PREV_CODE_SIZE *)
Definition rle_prev (prev : Z) (r : rle) : rle :=
  if r_rep r =? 0 then r
  else if r_rep r <? 3 then
    mk_rle (repeat prev (Z.to_nat (r_rep r)) ++ r_packed r)
           (nth_update (r_count r) (Z.to_nat prev) (u16 (at_index (r_count r) prev + r_rep r)))
           (r_z r) 0
  else
    mk_rle (u8 (r_rep r - 3) :: 16 :: r_packed r)
           (nth_update (r_count r) 16 (u16 (at_index (r_count r) 16 + 1))) (r_z r) 0.
(** 1009-1017: TDEFL_RLE_ZERO_CODE_SIZE *)
Definition rle_zero (r : rle) : rle :=
  if r_z r =? 0 then r
  else if r_z r <? 3 then
    mk_rle (repeat 0 (Z.to_nat (r_z r)) ++ r_packed r)
           (nth_update (r_count r) 0 (u16 (at_index (r_count r) 0 + r_z r))) 0 (r_rep r)
  else if r_z r <=? 10 then
    mk_rle (u8 (r_z r - 3) :: 17 :: r_packed r)
           (nth_update (r_count r) 17 (u16 (at_index (r_count r) 17 + 1))) 0 (r_rep r)
  else
    mk_rle (u8 (r_z r - 11) :: 18 :: r_packed r)
           (nth_update (r_count r) 18 (u16 (at_index (r_count r) 18 + 1))) 0 (r_rep r).
(** 1037-1058: for each code size *)
Fixpoint rle_loop (l : list Z) (prev : Z) (r : rle) : rle * Z :=
  match l with
  | [] => (r, prev)
  | c :: t =>
      rle_loop t c
        (if c =? 0 then
           let r1 := rle_prev prev r in
           let r2 := mk_rle (r_packed r1) (r_count r1) (r_z r1 + 1) (r_rep r1) in
           if r_z r2 =? 138 then rle_zero r2 else r2
         else
           let r1 := rle_zero r in
           if negb (c =? prev) then
             let r2 := rle_prev prev r1 in
             mk_rle (c :: r_packed r2)
                    (nth_update (r_count r2) (Z.to_nat c) (u16 (at_index (r_count r2) c + 1)))
                    (r_z r2) (r_rep r2)
           else
             let r2 := mk_rle (r_packed r1) (r_count r1) (r_z r1) (r_rep r1 + 1) in
             if r_rep r2 =? 6 then rle_prev prev r2 else r2)
  end.
(** 1033-1066 *)
Definition pack_sizes (l : list Z) : list Z * list Z :=
  let '(r, prev) := rle_loop l 255 (mk_rle [] (repeat 0 19) 0 0) in
  let r' := if negb (r_rep r =? 0) then rle_prev prev r else rle_zero r in
  (rev (r_packed r'), r_count r').
(** 1029-1030: for (n = top; n > low; n--) if (sizes[n - 1]) break *)
Fixpoint trim (turns : nat) (low : Z) (sizes : list Z) (n : Z) : Z :=
  match turns with
  | O => n
  | S turns' => if (n >? low) && (at_index sizes (n - 1) =? 0) then trim turns' low sizes (n - 1)
                else n
  end.
(** 1067: for (n = 18; n >= 0; n--) if (sizes[swizzle[n]]) break *)
Fixpoint trim_swizzle (turns : nat) (sizes : list Z) (n : Z) : Z :=
  match turns with
  | O => n
  | S turns' =>
      if (n >=? 0) && (at_index sizes (at_index s_length_dezigzag n) =? 0)
      then trim_swizzle turns' sizes (n - 1) else n
  end.
(** 1069 *)
Fixpoint put_sizes (l : list Z) (sizes : list Z) (o : obuf) : obuf :=
  match l with
  | [] => o
  | s :: t => put_sizes t sizes (put_bits (at_index sizes s) 3 o)
  end.
(** 1071-1078 *)
Fixpoint put_packed (turns : nat) (packed codes sizes : list Z) (o : obuf) : obuf :=
  match turns, packed with
  | S turns', code :: t =>
      let o1 := put_bits (at_index codes code) (at_index sizes code) o in
      if code >=? 16 then
        match t with
        | x :: t' => put_packed turns' t' codes sizes (put_bits x (at_index [2; 3; 7] (code - 16)) o1)
        | [] => o1
        end
      else put_packed turns' t codes sizes o1
  | _, _ => o
  end.
(** m_huff_code_sizes, m_huff_codes (src/miniz/miniz.h 916-942) *)
Record tables := mk_tables { t_sizes0 : list Z; t_codes0 : list Z; t_sizes1 : list Z; t_codes1 : list Z }.
(** 1019-1079: tdefl_start_dynamic_block *)
Definition start_dynamic_block (count0 count1 : list Z) (o : obuf) : outcome (tables * obuf) :=
  let* t0 := optimize_table (nth_update count0 256 1) 15 in
  let* t1 := optimize_table count1 15 in
  let nlit := trim 32 257 (fst t0) 286 in
  let ndist := trim 32 1 (fst t1) 30 in
  let '(packed, count2) := pack_sizes (ztake nlit (fst t0) ++ ztake ndist (fst t1)) in
  let* t2 := optimize_table count2 7 in
  let o1 := put_bits (ndist - 1) 5 (put_bits (nlit - 257) 5 (put_bits 2 2 o)) in
  let nbl := Z.max 4 (trim_swizzle 20 (fst t2) 18 + 1) in
  let o2 := put_bits (nbl - 4) 4 o1 in
  let o3 := put_sizes (ztake nbl s_length_dezigzag) (fst t2) o2 in
  Ok (mk_tables (fst t0) (snd t0) (fst t1) (snd t1),
      put_packed (length packed) packed (snd t2) (fst t2) o3).
(** 1081-1096: tdefl_start_static_block *)
Definition start_static_block (o : obuf) : outcome (tables * obuf) :=
  let* t0 := static_table static_sizes 15 in
  let* t1 := static_table (repeat 5 32) 15 in
  Ok (mk_tables (fst t0) (snd t0) (fst t1) (snd t1), put_bits 1 2 o).

(** 1111: TDEFL_PUT_BITS_FAST, on a 64-bit buffer *)
Definition put_fast (b l : Z) (x : Z * Z) : Z * Z :=
  (Z.lor (fst x) (u64 (Z.shiftl b (snd x))), snd x + l).
(** 1098, 1125 and others: value & mz_bitmasks[bits] *)
Definition low_bits (v n : Z) : Z := Z.land v (Z.shiftl 1 n - 1).
(** 1107-1110, 1145-1175: a literal through the fast bit buffer *)
Definition lit_fast (t : tables) (lit : Z) (x : Z * Z) : Z * Z :=
  put_fast (at_index (t_codes0 t) lit) (at_index (t_sizes0 t) lit) x.
(** 1121-1138 *)
Definition match_fast (t : tables) (l v : Z) (x : Z * Z) : Z * Z :=
  let sym := at_index s_tdefl_len_sym l in
  let ex := at_index s_tdefl_len_extra l in
  let dsym := dist_sym v in
  let dex := dist_extra v in
  put_fast (low_bits v dex) dex
    (put_fast (at_index (t_codes1 t) dsym) (at_index (t_sizes1 t) dsym)
      (put_fast (low_bits l ex) ex
        (put_fast (at_index (t_codes0 t) sym) (at_index (t_sizes0 t) sym) x))).
(** Helper of the 64-bit store 1177-1183. *)
Fixpoint low_bytes (n : nat) (v : Z) : bytes :=
  match n with O => [] | S n' => u8 v :: low_bytes n' (Z.shiftr v 8) end.

(** 1114-1172: *pLZ_codes, bound-checked *)
Definition lz_at (buf : arr) (i : Z) : outcome Z :=
  if (0 <=? i) && (i <? LZ_CODE_BUF_SIZE) then Ok (arr_get 0 buf i) else Undef OutOfBounds.
(** 1113-1174: the loop over the LZ codes; None: the output buffer is full (1164).
    [end_]: pLZ_code_buf_end. *)
Fixpoint lz_loop (turns : nat) (t : tables) (buf : arr) (end_ p flags : Z) (o : obuf)
  : outcome (option obuf) :=
  if p <? end_ then
    match turns with
    | O => Undef OutOfFuel
    | S turns' =>
        let* y := (if flags =? 1 then let* f := lz_at buf p in Ok (Z.lor f 256, p + 1)
                   else Ok (flags, p)) in
        let '(flags1, p1) := y in
        let x0 := (ob_bb o, ob_nb o) in
        let* z :=
          (if negb (Z.land flags1 1 =? 0) then
             let* l := lz_at buf p1 in
             let* a := lz_at buf (p1 + 1) in
             let* b := lz_at buf (p1 + 2) in
             Ok (match_fast t l (a + 256 * b) x0, flags1, p1 + 3)
           else
             let* c := lz_at buf p1 in
             let x1 := lit_fast t c x0 in
             if (Z.land flags1 2 =? 0) && (p1 + 1 <? end_) then
               let flags2 := Z.shiftr flags1 1 in
               let* c := lz_at buf (p1 + 1) in
               let x2 := lit_fast t c x1 in
               if (Z.land flags2 2 =? 0) && (p1 + 2 <? end_) then
                 let* c := lz_at buf (p1 + 2) in
                 Ok (lit_fast t c x2, Z.shiftr flags2 1, p1 + 3)
               else Ok (x2, flags2, p1 + 2)
             else Ok (x1, flags1, p1 + 1)) in
        let '((bb, nb), flags3, p3) := z in
        if ob_n o >=? OUT_LIMIT then Ok None
        else
          let k := Z.shiftr nb 3 in
          lz_loop turns' t buf end_ p3 (Z.shiftr flags3 1)
            (mk_obuf (rev_append (low_bytes (Z.to_nat k) bb) (ob_rev o)) (ob_n o + k)
                     (Z.shiftr bb (8 * k)) (Z.land nb 7))
    end
  else Ok (Some o).
(** 1102-1189: tdefl_compress_lz_codes; 1180-1186: at most 7 bits are left, so one
    TDEFL_PUT_BITS takes them. When the loop gives up, m_pOutput_buf, m_bit_buffer and
    m_bits_in are unchanged (1164). *)
Definition compress_lz_codes (t : tables) (buf : arr) (end_ : Z) (o : obuf)
  : outcome (bool * obuf) :=
  let* r := lz_loop (Z.to_nat LZ_CODE_BUF_SIZE) t buf end_ 0 1 o in
  match r with
  | None => Ok (false, o)
  | Some o1 =>
      let o2 := mk_obuf (ob_rev o1) (ob_n o1) 0 0 in
      let o3 := if ob_nb o1 =? 0 then o2 else put_bits (low_bits (ob_bb o1) (ob_nb o1)) (ob_nb o1) o2 in
      let o4 := put_bits (at_index (t_codes0 t) 256) (at_index (t_sizes0 t) 256) o3 in
      Ok (ob_n o4 <? OUT_LIMIT, o4)
  end.

(** ** The compressor *)
(** src/miniz/miniz.h 916-942. Not kept: the fields used within one call only, and
    m_huff_code_sizes, m_huff_codes, which are recomputed for every block. *)
Record tdefl := mk_tdefl {
  d_dict : arr;       (* m_dict *)
  d_next : arr;       (* m_next *)
  d_hash : arr;       (* m_hash *)
  d_lpos : Z;         (* m_lookahead_pos *)
  d_lsize : Z;        (* m_lookahead_size *)
  d_dsize : Z;        (* m_dict_size *)
  d_total : Z;        (* m_total_lz_bytes *)
  d_start : Z;        (* m_lz_code_buf_dict_pos *)
  d_buf : arr;        (* m_lz_code_buf *)
  d_p : Z;            (* m_pLZ_code_buf - m_lz_code_buf *)
  d_flags : Z;        (* m_pLZ_flags - m_lz_code_buf *)
  d_left : Z;         (* m_num_flags_left *)
  d_count0 : list Z;  (* m_huff_count[0] *)
  d_count1 : list Z;  (* m_huff_count[1] *)
  d_bb : Z;           (* m_bit_buffer *)
  d_nb : Z;           (* m_bits_in *)
  d_pend : bytes;     (* m_output_buf[m_output_flush_ofs ..], m_output_flush_remaining bytes *)
  d_finished : bool;  (* m_finished *)
  d_wants : bool;     (* m_wants_to_finish *)
  d_prev : Z          (* m_prev_return_status *)
}.
(** src/miniz/miniz.h: tdefl_status *)
Definition TDEFL_BAD_PARAM : Z := -2.
(** src/miniz/miniz.h: tdefl_status *)
Definition TDEFL_OKAY : Z := 0.
(** src/miniz/miniz.h: tdefl_status *)
Definition TDEFL_DONE : Z := 1.

(** 1780-1800: tdefl_init. The dictionary, the hash chains and the LZ code buffer are
    whatever the allocator returned (m_hash is cleared). *)
Definition new_tdefl (dict next buf : arr) : tdefl :=
  mk_tdefl dict next arr_empty 0 0 0 0 0 buf 1 0 8 (repeat 0 288) (repeat 0 32) 0 0 []
           false false TDEFL_OKAY.

(** Helper: field update. *)
Definition set_window (d : tdefl) (dict next hash : arr) (lsize : Z) : tdefl :=
  mk_tdefl dict next hash (d_lpos d) lsize (d_dsize d) (d_total d) (d_start d) (d_buf d) (d_p d)
    (d_flags d) (d_left d) (d_count0 d) (d_count1 d) (d_bb d) (d_nb d) (d_pend d) (d_finished d)
    (d_wants d) (d_prev d).
(** Helper: field update. *)
Definition set_position (d : tdefl) (lpos lsize dsize : Z) : tdefl :=
  mk_tdefl (d_dict d) (d_next d) (d_hash d) lpos lsize dsize (d_total d) (d_start d) (d_buf d)
    (d_p d) (d_flags d) (d_left d) (d_count0 d) (d_count1 d) (d_bb d) (d_nb d) (d_pend d)
    (d_finished d) (d_wants d) (d_prev d).
(** Helper: field update. *)
Definition set_codes (d : tdefl) (total : Z) (buf : arr) (p flags nleft : Z) (c0 c1 : list Z) : tdefl :=
  mk_tdefl (d_dict d) (d_next d) (d_hash d) (d_lpos d) (d_lsize d) (d_dsize d) total (d_start d)
    buf p flags nleft c0 c1 (d_bb d) (d_nb d) (d_pend d) (d_finished d) (d_wants d) (d_prev d).
(** Helper: field update. *)
Definition set_status (d : tdefl) (finished wants : bool) (prev : Z) : tdefl :=
  mk_tdefl (d_dict d) (d_next d) (d_hash d) (d_lpos d) (d_lsize d) (d_dsize d) (d_total d)
    (d_start d) (d_buf d) (d_p d) (d_flags d) (d_left d) (d_count0 d) (d_count1 d) (d_bb d)
    (d_nb d) (d_pend d) finished wants prev.
(** Helper: field update. *)
Definition set_pend (d : tdefl) (pend : bytes) : tdefl :=
  mk_tdefl (d_dict d) (d_next d) (d_hash d) (d_lpos d) (d_lsize d) (d_dsize d) (d_total d)
    (d_start d) (d_buf d) (d_p d) (d_flags d) (d_left d) (d_count0 d) (d_count1 d) (d_bb d)
    (d_nb d) pend (d_finished d) (d_wants d) (d_prev d).

(** 1275-1282: the bytes of a raw block, from the dictionary *)
Fixpoint put_raw (n : nat) (dict : arr) (i : Z) (o : obuf) : obuf :=
  match n with
  | O => o
  | S n' => put_raw n' dict (i + 1) (put_bits (arr_get 0 dict (Z.land i DICT_MASK)) 8 o)
  end.
(** 1258: *d->m_pLZ_flags = (mz_uint8)( *d->m_pLZ_flags >> d->m_num_flags_left) *)
Definition close_flags (d : tdefl) : arr :=
  arr_set (d_buf d) (d_flags d) (u8 (Z.shiftr (arr_get 0 (d_buf d) (d_flags d)) (d_left d))).
(** 1245-1308: one block into the output buffer; [finish]: flush == TDEFL_FINISH, else
    flush == 0 (the two values libnpy uses). Result: the bytes and the bits left. *)
Definition block_output (d : tdefl) (finish : bool) : outcome obuf :=
  let buf := close_flags d in
  let end_ := d_p d - (if d_left d =? 8 then 1 else 0) in
  let o1 := put_bits (if finish then 1 else 0) 1 (mk_obuf [] 0 (d_bb d) (d_nb d)) in
  let in_dict := u32 (d_lpos d - d_start d) <=? d_dsize d in
  let* x := (if d_total d <? 48 then start_static_block o1
             else start_dynamic_block (d_count0 d) (d_count1 d) o1) in
  let* y := compress_lz_codes (fst x) buf end_ (snd x) in
  let* o2 :=
    (if negb (d_total d =? 0) && (ob_n (snd y) - ob_n o1 + 1 >=? d_total d) && in_dict then
       let n := d_total d in
       let a := pad_byte (put_bits 0 2 o1) in
       let b := put_bits (Z.land (Z.lxor n 65535) 65535) 16 (put_bits (Z.land n 65535) 16 a) in
       Ok (put_raw (Z.to_nat n) (d_dict d) (d_start d) b)
     else if negb (fst y) then
       let* x' := start_static_block o1 in
       let* y' := compress_lz_codes (fst x') buf end_ (snd x') in
       Ok (snd y')
     else Ok (snd y)) in
  Ok (if finish then pad_byte o2 else o2).
(** 1310-1343: reset for the next block, and hand the bytes out: [room] is
    *m_pOut_buf_size - m_out_buf_ofs. With room for OUT_BUF_SIZE bytes the block was
    written in place; otherwise it is copied, as far as it fits. *)
Definition flush_block (d : tdefl) (finish : bool) (room : Z) : outcome (bytes * tdefl) :=
  let* o := block_output d finish in
  let out := rev' (ob_rev o) in
  let direct := room >=? OUT_BUF_SIZE in
  Ok (if direct then out else ztake room out,
      mk_tdefl (d_dict d) (d_next d) (d_hash d) (d_lpos d) (d_lsize d) (d_dsize d) 0
        (u32 (d_start d + d_total d)) (close_flags d) 1 0 8 (repeat 0 288) (repeat 0 32)
        (ob_bb o) (ob_nb o) (if direct then [] else zdrop room out)
        (d_finished d) (d_wants d) (d_prev d)).

(** 1595, 1617: m_dict[dst_pos] = c, and its copy past the end *)
Definition dict_store (dict : arr) (pos c : Z) : arr :=
  let dict1 := arr_set dict pos c in
  if pos <? MAX_MATCH_LEN - 1 then arr_set dict1 (TDEFL_LZ_DICT_SIZE + pos) c else dict1.
(** 1593-1601: at most [n] = MAX_MATCH_LEN - m_lookahead_size bytes *)
Fixpoint fill_loop (n : nat) (dst ins hash : Z) (w : arr * arr * arr) (lsize : Z) (src : bytes)
  : arr * arr * arr * Z * bytes :=
  match n, src with
  | S n', c :: t =>
      let '(dict, next, heads) := w in
      let dict1 := dict_store dict dst c in
      let hash1 := Z.land (Z.lxor (u32 (Z.shiftl hash HASH_SHIFT)) c) (HASH_SIZE - 1) in
      let next1 := arr_set next (Z.land ins DICT_MASK) (arr_get 0 heads hash1) in
      let heads1 := arr_set heads hash1 (u16 ins) in
      fill_loop n' (Z.land (dst + 1) DICT_MASK) (u32 (ins + 1)) hash1 (dict1, next1, heads1)
                (lsize + 1) t
  | _, _ => (w, lsize, src)
  end.
(** 1605-1626: while ((src_buf_left) && (d->m_lookahead_size < TDEFL_MAX_MATCH_LEN)) *)
Fixpoint fill_start (n : nat) (lpos dsize : Z) (w : arr * arr * arr) (lsize : Z) (src : bytes)
  : arr * arr * arr * Z * bytes :=
  match n, src with
  | S n', c :: t =>
      let '(dict, next, heads) := w in
      let dict1 := dict_store dict (Z.land (u32 (lpos + lsize)) DICT_MASK) c in
      let lsize1 := lsize + 1 in
      let w1 :=
        if lsize1 + dsize >=? MIN_MATCH_LEN then
          let ins := u32 (lpos + (lsize1 - 1) - 2) in
          let a := arr_get 0 dict1 (Z.land ins DICT_MASK) in
          let b := arr_get 0 dict1 (Z.land (ins + 1) DICT_MASK) in
          let hash := Z.land (Z.lxor (Z.lxor (Z.shiftl a (HASH_SHIFT * 2)) (Z.shiftl b HASH_SHIFT)) c)
                             (HASH_SIZE - 1) in
          (dict1, arr_set next (Z.land ins DICT_MASK) (arr_get 0 heads hash),
           arr_set heads hash (u16 ins))
        else (dict1, next, heads) in
      fill_start n' lpos dsize w1 lsize1 t
  | _, _ => (w, lsize, src)
  end.
(** 1586-1627 *)
Definition fill (d : tdefl) (src : bytes) : tdefl * bytes :=
  let n := Z.to_nat (MAX_MATCH_LEN - d_lsize d) in
  let '(w, lsize, src1) :=
    (if d_lsize d + d_dsize d >=? MIN_MATCH_LEN - 1 then
       let dst := Z.land (u32 (d_lpos d + d_lsize d)) DICT_MASK in
       let ins := u32 (d_lpos d + d_lsize d - 2) in
       let hash := Z.lxor (Z.shiftl (arr_get 0 (d_dict d) (Z.land ins DICT_MASK)) HASH_SHIFT)
                          (arr_get 0 (d_dict d) (Z.land (ins + 1) DICT_MASK)) in
       fill_loop n dst ins hash (d_dict d, d_next d, d_hash d) (d_lsize d) src
     else
       fill_start n (d_lpos d) (d_dsize d) (d_dict d, d_next d, d_hash d) (d_lsize d) src) in
  (set_window d (fst (fst w)) (snd (fst w)) (snd w) lsize, src1).

(** 1347: TDEFL_READ_UNALIGNED_WORD *)
Definition word_at (dict : arr) (i : Z) : Z := arr_get 0 dict i + 256 * arr_get 0 dict (i + 1).
(** 1359-1364: TDEFL_PROBE *)
Inductive probed := P_stop | P_miss (pos : Z) | P_hit (pos dist : Z).
(** 1359-1364: TDEFL_PROBE *)
Definition probe (d : tdefl) (max_dist match_len c01 pos : Z) : probed :=
  let np := arr_get 0 (d_next d) pos in
  if np =? 0 then P_stop
  else
    let dist := u16 (d_lpos d - np) in
    if dist >? max_dist then P_stop
    else
      let pos1 := Z.land np DICT_MASK in
      if word_at (d_dict d) (pos1 + match_len - 1) =? c01 then P_hit pos1 dist else P_miss pos1.
(** 1365: three probes *)
Definition probe3 (d : tdefl) (max_dist match_len c01 pos : Z) : probed :=
  match probe d max_dist match_len c01 pos with
  | P_miss pos1 =>
      match probe d max_dist match_len c01 pos1 with
      | P_miss pos2 => probe d max_dist match_len c01 pos2
      | r => r
      end
  | r => r
  end.
(** 1368-1369: the first of the words 1 .. 128 that differs; None if none does *)
Fixpoint first_diff (n : nat) (dict : arr) (p q i : Z) : option Z :=
  match n with
  | O => None
  | S n' => if word_at dict (p + 2 * i) =? word_at dict (q + 2 * i)
            then first_diff n' dict p q (i + 1) else Some i
  end.
(** 1348-1380: tdefl_find_match; [n] is num_probes_left. Result: match_dist, match_len. *)
Fixpoint find_loop (n : nat) (d : tdefl) (max_dist max_len pos probe_pos dist0 match_len c01 : Z)
  : Z * Z :=
  match n with
  | O | S O => (dist0, match_len)
  | S n' =>
      match probe3 d max_dist match_len c01 probe_pos with
      | P_stop => (dist0, match_len)
      | P_miss q => find_loop n' d max_dist max_len pos q dist0 match_len c01
      | P_hit q dist =>
          if dist =? 0 then (dist0, match_len)
          else if negb (word_at (d_dict d) q =? word_at (d_dict d) pos)
          then find_loop n' d max_dist max_len pos q dist0 match_len c01
          else match first_diff 128 (d_dict d) pos q 1 with
               | None => (dist, Z.min max_len MAX_MATCH_LEN)
               | Some i =>
                   let l := 2 * i + (if arr_get 0 (d_dict d) (pos + 2 * i)
                                        =? arr_get 0 (d_dict d) (q + 2 * i) then 1 else 0) in
                   if l >? match_len then
                     let l' := Z.min max_len l in
                     if l' =? max_len then (dist, l')
                     else find_loop n' d max_dist max_len pos q dist l'
                                    (word_at (d_dict d) (pos + l' - 1))
                   else find_loop n' d max_dist max_len pos q dist0 match_len c01
               end
      end
  end.
(** 1348-1358: the entry of tdefl_find_match, with match_len = TDEFL_MIN_MATCH_LEN - 1 (1632) *)
Definition find_match (d : tdefl) : Z * Z :=
  let pos := Z.land (d_lpos d) DICT_MASK in
  if d_lsize d <=? MIN_MATCH_LEN - 1 then (0, MIN_MATCH_LEN - 1)
  else find_loop MAX_PROBES d (d_dsize d) (d_lsize d) pos pos 0 (MIN_MATCH_LEN - 1)
                 (word_at (d_dict d) (pos + (MIN_MATCH_LEN - 1) - 1)).

(** 1553, 1564-1567: *d->m_pLZ_code_buf = x, bound-checked *)
Definition buf_put (buf : arr) (i x : Z) : outcome arr :=
  if (0 <=? i) && (i <? LZ_CODE_BUF_SIZE) then Ok (arr_set buf i x) else Undef OutOfBounds.
(** 1555, 1573-1577: m_huff_count[..][..]++ (mz_uint16) *)
Definition count_up (l : list Z) (i : Z) : list Z :=
  nth_update l (Z.to_nat i) (u16 (at_index l i + 1)).
(** 1554, 1569: one more flag *)
Definition next_flag (bit : Z) (buf : arr) (p flags nleft : Z) : outcome (arr * Z * Z * Z) :=
  let* buf1 := buf_put buf flags (u8 (Z.lor (Z.shiftr (arr_get 0 buf flags) 1) bit)) in
  if nleft - 1 =? 0 then Ok (buf1, p + 1, p, 8) else Ok (buf1, p, flags, nleft - 1).
(** 1550-1556: tdefl_record_literal *)
Definition record_literal (d : tdefl) (lit : Z) : outcome tdefl :=
  let* buf := buf_put (d_buf d) (d_p d) lit in
  let* x := next_flag 0 buf (d_p d + 1) (d_flags d) (d_left d) in
  let '(buf1, p, flags, nleft) := x in
  Ok (set_codes d (d_total d + 1) buf1 p flags nleft (count_up (d_count0 d) lit) (d_count1 d)).
(** 1558-1578: tdefl_record_match *)
Definition record_match (d : tdefl) (match_len match_dist : Z) : outcome tdefl :=
  let v := u32 (match_dist - 1) in
  let l := u8 (match_len - MIN_MATCH_LEN) in
  let* buf1 := buf_put (d_buf d) (d_p d) l in
  let* buf2 := buf_put buf1 (d_p d + 1) (Z.land v 255) in
  let* buf3 := buf_put buf2 (d_p d + 2) (u8 (Z.shiftr v 8)) in
  let* x := next_flag 128 buf3 (d_p d + 3) (d_flags d) (d_left d) in
  let '(buf4, p, flags, nleft) := x in
  Ok (set_codes d (u32 (d_total d + match_len)) buf4 p flags nleft
        (if match_len >=? MIN_MATCH_LEN
         then count_up (d_count0 d) (at_index s_tdefl_len_sym (match_len - MIN_MATCH_LEN))
         else d_count0 d)
        (count_up (d_count1 d) (dist_sym v))).

(** 1680-1681: time to flush? *)
Definition block_full (d : tdefl) : bool :=
  (d_p d >? LZ_CODE_BUF_SIZE - 8)
  || ((d_total d >? 31 * 1024) && (Z.shiftr (d_p d * 115) 7 >=? d_total d)).
(** 1580-1696: tdefl_compress_normal. Result: input left, bytes written, state. *)
Fixpoint compress_normal (turns : nat) (d : tdefl) (finish : bool) (room : Z) (src : bytes)
    (out : bytes) : outcome (bytes * bytes * tdefl) :=
  match turns with
  | O => Undef OutOfFuel
  | S turns' =>
      if match src with [] => false | _ => true end || (finish && negb (d_lsize d =? 0)) then
        let (d1, src1) := fill d src in
        let d2 := set_position d1 (d_lpos d1) (d_lsize d1)
                    (Z.min (TDEFL_LZ_DICT_SIZE - d_lsize d1) (d_dsize d1)) in
        if negb finish && (d_lsize d2 <? MAX_MATCH_LEN) then Ok (src1, out, d2)
        else
          let cur_pos := Z.land (d_lpos d2) DICT_MASK in
          let (dist0, len0) := find_match d2 in
          let drop := ((len0 =? MIN_MATCH_LEN) && (dist0 >=? 8 * 1024)) || (cur_pos =? dist0) in
          let dist1 := if drop then 0 else dist0 in
          let len1 := if drop then 0 else len0 in
          let* x := (if dist1 =? 0 then
                       let* d3 := record_literal d2 (arr_get 0 (d_dict d2) cur_pos) in Ok (d3, 1)
                     else let* d3 := record_match d2 len1 dist1 in Ok (d3, len1)) in
          let '(d3, move) := x in
          let d4 := set_position d3 (u32 (d_lpos d3 + move)) (u32 (d_lsize d3 - move))
                                 (Z.min (d_dsize d3 + move) TDEFL_LZ_DICT_SIZE) in
          if block_full d4 then
            let* y := flush_block d4 false (room - len out) in
            match d_pend (snd y) with
            | [] => compress_normal turns' (snd y) finish room src1 (out ++ fst y)
            | _ => Ok (src1, out ++ fst y, snd y)
            end
          else compress_normal turns' d4 finish room src1 out
      else Ok (src, out, d)
  end.

(** 1698-1717: tdefl_flush_output_buffer *)
Definition flush_output_buffer (d : tdefl) (room : Z) : bytes * tdefl * Z :=
  let d1 := set_pend d (zdrop room (d_pend d)) in
  let status := if d_finished d && (match d_pend d1 with [] => true | _ => false end)
                then TDEFL_DONE else TDEFL_OKAY in
  (ztake room (d_pend d), set_status d1 (d_finished d1) (d_wants d1) status, status).
(** 1719-1778: tdefl_compress with [room] bytes of output space.
    Result: status, input left, bytes written, state. *)
Definition compress_fuel (d : tdefl) (src : bytes) : nat :=
  (length src + Z.to_nat (d_lsize d) + 1)%nat.
(** 1719-1778 *)
Definition tdefl_compress (d : tdefl) (src : bytes) (room : Z) (finish : bool)
  : outcome (Z * bytes * bytes * tdefl) :=
  if negb (d_prev d =? TDEFL_OKAY) || (d_wants d && negb finish) then
    Ok (TDEFL_BAD_PARAM, src, [], set_status d (d_finished d) (d_wants d) TDEFL_BAD_PARAM)
  else
    let d0 := set_status d (d_finished d) (d_wants d || finish) (d_prev d) in
    if match d_pend d0 with [] => false | _ => true end || d_finished d0 then
      let '(o, d1, status) := flush_output_buffer d0 room in
      Ok (status, src, o, d1)
    else
      let* x := compress_normal (compress_fuel d0 src) d0 finish room src [] in
      let '(src1, o1, d1) := x in
      let* y :=
        (if finish && (d_lsize d1 =? 0) && (match src1 with [] => true | _ => false end)
            && (match d_pend d1 with [] => true | _ => false end) then
           let* z := flush_block d1 true (room - len o1) in
           Ok (o1 ++ fst z, set_status (snd z) true (d_wants (snd z)) (d_prev (snd z)))
         else Ok (o1, d1)) in
      let '(o2, d2) := y in
      let '(o3, d3, status) := flush_output_buffer d2 (room - len o2) in
      Ok (status, src1, o2 ++ o3, d3).

(** src/miniz/miniz.h: enum of return codes *)
Definition MZ_STREAM_ERROR : Z := -2.
(** 138-185: mz_deflate, MZ_FINISH or MZ_NO_FLUSH. [moved]: total_in or total_out has
    changed during this call. Result: return code, input left, bytes written, state. *)
Fixpoint deflate_loop (turns : nat) (d : tdefl) (src : bytes) (room : Z) (finish moved : bool)
    (out : bytes) : outcome (Z * bytes * bytes * tdefl) :=
  match turns with
  | O => Undef OutOfFuel
  | S turns' =>
      let* x := tdefl_compress d src (room - len out) finish in
      let '(status, src1, o, d1) := x in
      let out1 := out ++ o in
      let moved1 := moved || negb (len src1 =? len src) || negb (len o =? 0) in
      if status <? 0 then Ok (MZ_STREAM_ERROR, src1, out1, d1)
      else if status =? TDEFL_DONE then Ok (MZ_STREAM_END, src1, out1, d1)
      else if room - len out1 =? 0 then Ok (MZ_OK, src1, out1, d1)
      else if (match src1 with [] => true | _ => false end) && negb finish then
        Ok (if moved1 then MZ_OK else MZ_BUF_ERROR, src1, out1, d1)
      else deflate_loop turns' d1 src1 room finish moved1 out1
  end.
(** 138-185 *)
Definition mz_deflate (d : tdefl) (src : bytes) (room : Z) (finish : bool)
  : outcome (Z * bytes * bytes * tdefl) :=
  if d_prev d =? TDEFL_DONE then
    Ok (if finish then MZ_STREAM_END else MZ_BUF_ERROR, src, [], d)
  else deflate_loop 4 d src room finish false [].

(** ** npy_deflate *)
(** src/zip.cpp 64-80: until output space is left *)
Fixpoint deflate_chunk (turns : nat) (v : env) (d : tdefl) (src : bytes) (finish : bool) (out : bytes)
  : outcome (Z * bytes * bytes * tdefl) :=
  match turns with
  | O => Undef OutOfFuel
  | S turns' =>
      let* x := mz_deflate d src CHUNK finish in
      let '(ret, src1, o, d1) := x in
      if dbg v && (ret =? MZ_STREAM_ERROR) then AssertFail
      else if CHUNK - len o =? 0 then deflate_chunk turns' v d1 src1 finish (out ++ o)
      else Ok (ret, src1, out ++ o, d1)
  end.
(** src/zip.cpp 47-83: chunk by chunk; the read that meets the end of the input is the
    last one *)
Fixpoint deflate_chunks (turns : nat) (v : env) (d : tdefl) (input : bytes) (out : bytes)
  : outcome bytes :=
  match turns with
  | O => Undef OutOfFuel
  | S turns' =>
      let chunk := ztake CHUNK input in
      let rest := zdrop CHUNK input in
      let finish := len chunk <? CHUNK in
      let* x := deflate_chunk (length input + 300) v d chunk finish out in
      let '(ret, src1, out1, d1) := x in
      if dbg v && negb (len src1 =? 0) then AssertFail
      else if finish then
        if dbg v && negb (ret =? MZ_STREAM_END) then AssertFail else Ok out1
      else deflate_chunks turns' v d1 rest out1
  end.
(** src/zip.cpp 28-89, starting from arbitrary heap contents *)
Definition npy_deflate (v : env) (dict next buf : arr) (b : bytes) : outcome bytes :=
  deflate_chunks (S (length b)) v (new_tdefl dict next buf) b [].
