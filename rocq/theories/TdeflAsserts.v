(** The compressor in a build without NDEBUG: src/miniz/miniz.cpp 13 makes MZ_ASSERT the
    assert of <assert.h>, so each MZ_ASSERT on the path libnpy uses may stop the program.
    The functions below are those of Tdefl.v with these checks in place (990, 1075, 1124,
    1136, 1143, 1150, 1157, 1256, 1311, 1354, 1562, 1680); 1206-1225 are in the branch for
    other machines, 1388, 1473, 1502 in functions libnpy does not reach, 1777 and the
    asserts of the ZIP part of miniz in functions libnpy does not call. *)
From Coq Require Import ZArith List Bool.
From Verif Require Import Base Arr Tinfl Tdefl.
Import ListNotations.
Open Scope Z_scope.

(** 989-998: MZ_ASSERT(bits <= ((1U << len) - 1U)), on unsigned numbers *)
Definition put_bits_a (b l : Z) (o : obuf) : outcome obuf :=
  if u32 b <=? Z.shiftl 1 l - 1 then Ok (put_bits b l o) else AssertFail.
(** 1082 and others *)
Definition pad_byte_a (o : obuf) : outcome obuf :=
  if ob_nb o =? 0 then Ok o else put_bits_a 0 (8 - ob_nb o) o.
(** 1069 *)
Fixpoint put_sizes_a (l : list Z) (sizes : list Z) (o : obuf) : outcome obuf :=
  match l with
  | [] => Ok o
  | s :: t => let* o1 := put_bits_a (at_index sizes s) 3 o in put_sizes_a t sizes o1
  end.
(** 1071-1078: MZ_ASSERT(code < TDEFL_MAX_HUFF_SYMBOLS_2) *)
Fixpoint put_packed_a (turns : nat) (packed codes sizes : list Z) (o : obuf) : outcome obuf :=
  match turns, packed with
  | S turns', code :: t =>
      if code <? 19 then
        let* o1 := put_bits_a (at_index codes code) (at_index sizes code) o in
        if code >=? 16 then
          match t with
          | x :: t' =>
              let* o2 := put_bits_a x (at_index [2; 3; 7] (code - 16)) o1 in
              put_packed_a turns' t' codes sizes o2
          | [] => Ok o1
          end
        else put_packed_a turns' t codes sizes o1
      else AssertFail
  | _, _ => Ok o
  end.
(** 1019-1079: tdefl_start_dynamic_block *)
Definition start_dynamic_block_a (count0 count1 : list Z) (o : obuf) : outcome (tables * obuf) :=
  let* t0 := optimize_table (nth_update count0 256 1) 15 in
  let* t1 := optimize_table count1 15 in
  let nlit := trim 32 257 (fst t0) 286 in
  let ndist := trim 32 1 (fst t1) 30 in
  let '(packed, count2) := pack_sizes (ztake nlit (fst t0) ++ ztake ndist (fst t1)) in
  let* t2 := optimize_table count2 7 in
  let* a := put_bits_a 2 2 o in
  let* b := put_bits_a (nlit - 257) 5 a in
  let* o1 := put_bits_a (ndist - 1) 5 b in
  let nbl := Z.max 4 (trim_swizzle 20 (fst t2) 18 + 1) in
  let* o2 := put_bits_a (nbl - 4) 4 o1 in
  let* o3 := put_sizes_a (ztake nbl s_length_dezigzag) (fst t2) o2 in
  let* o4 := put_packed_a (length packed) packed (snd t2) (fst t2) o3 in
  Ok (mk_tables (fst t0) (snd t0) (fst t1) (snd t1), o4).
(** 1081-1096: tdefl_start_static_block *)
Definition start_static_block_a (o : obuf) : outcome (tables * obuf) :=
  let* t0 := static_table static_sizes 15 in
  let* t1 := static_table (repeat 5 32) 15 in
  let* o1 := put_bits_a 1 2 o in
  Ok (mk_tables (fst t0) (snd t0) (fst t1) (snd t1), o1).

(** 1143, 1150, 1157: MZ_ASSERT(d->m_huff_code_sizes[0][lit]) *)
Definition lit_fast_a (t : tables) (lit : Z) (x : Z * Z) : outcome (Z * Z) :=
  if at_index (t_sizes0 t) lit =? 0 then AssertFail else Ok (lit_fast t lit x).
(** 1124, 1136: the symbols of a match have codes *)
Definition match_fast_a (t : tables) (l v : Z) (x : Z * Z) : outcome (Z * Z) :=
  if at_index (t_sizes0 t) (at_index s_tdefl_len_sym l) =? 0 then AssertFail
  else if at_index (t_sizes1 t) (dist_sym v) =? 0 then AssertFail
  else Ok (match_fast t l v x).
(** 1118-1162: the codes of one turn of the loop *)
Definition turn_a (t : tables) (buf : arr) (end_ flags1 p1 : Z) (x0 : Z * Z)
  : outcome ((Z * Z) * Z * Z) :=
  if negb (Z.land flags1 1 =? 0) then
    let* l := lz_at buf p1 in
    let* a := lz_at buf (p1 + 1) in
    let* b := lz_at buf (p1 + 2) in
    let* x := match_fast_a t l (a + 256 * b) x0 in
    Ok (x, flags1, p1 + 3)
  else
    let* c := lz_at buf p1 in
    let* x1 := lit_fast_a t c x0 in
    if (Z.land flags1 2 =? 0) && (p1 + 1 <? end_) then
      let flags2 := Z.shiftr flags1 1 in
      let* c := lz_at buf (p1 + 1) in
      let* x2 := lit_fast_a t c x1 in
      if (Z.land flags2 2 =? 0) && (p1 + 2 <? end_) then
        let* c := lz_at buf (p1 + 2) in
        let* x3 := lit_fast_a t c x2 in
        Ok (x3, Z.shiftr flags2 1, p1 + 3)
      else Ok (x2, flags2, p1 + 2)
    else Ok (x1, flags1, p1 + 1).
(** 1113-1174 *)
Fixpoint lz_loop_a (turns : nat) (t : tables) (buf : arr) (end_ p flags : Z) (o : obuf)
  : outcome (option obuf) :=
  if p <? end_ then
    match turns with
    | O => Undef OutOfFuel
    | S turns' =>
        let* y := (if flags =? 1 then let* f := lz_at buf p in Ok (Z.lor f 256, p + 1)
                   else Ok (flags, p)) in
        let '(flags1, p1) := y in
        let* z := turn_a t buf end_ flags1 p1 (ob_bb o, ob_nb o) in
        let '((bb, nb), flags3, p3) := z in
        if ob_n o >=? OUT_LIMIT then Ok None
        else
          let k := Z.shiftr nb 3 in
          lz_loop_a turns' t buf end_ p3 (Z.shiftr flags3 1)
            (mk_obuf (rev_append (low_bytes (Z.to_nat k) bb) (ob_rev o)) (ob_n o + k)
                     (Z.shiftr bb (8 * k)) (Z.land nb 7))
    end
  else Ok (Some o).
(** 1102-1189 *)
Definition compress_lz_codes_a (t : tables) (buf : arr) (end_ : Z) (o : obuf)
  : outcome (bool * obuf) :=
  let* r := lz_loop_a (Z.to_nat LZ_CODE_BUF_SIZE) t buf end_ 0 1 o in
  match r with
  | None => Ok (false, o)
  | Some o1 =>
      let o2 := mk_obuf (ob_rev o1) (ob_n o1) 0 0 in
      let* o3 := (if ob_nb o1 =? 0 then Ok o2
                  else put_bits_a (low_bits (ob_bb o1) (ob_nb o1)) (ob_nb o1) o2) in
      let* o4 := put_bits_a (at_index (t_codes0 t) 256) (at_index (t_sizes0 t) 256) o3 in
      Ok (ob_n o4 <? OUT_LIMIT, o4)
  end.

(** 1275-1282 *)
Fixpoint put_raw_a (n : nat) (dict : arr) (i : Z) (o : obuf) : outcome obuf :=
  match n with
  | O => Ok o
  | S n' =>
      let* o1 := put_bits_a (arr_get 0 dict (Z.land i DICT_MASK)) 8 o in
      put_raw_a n' dict (i + 1) o1
  end.
(** 1271-1282: a block sent uncompressed *)
Definition raw_block_a (d : tdefl) (o1 : obuf) : outcome obuf :=
  let n := d_total d in
  let* a := put_bits_a 0 2 o1 in
  let* b := pad_byte_a a in
  let* c := put_bits_a (Z.land n 65535) 16 b in
  let* e := put_bits_a (Z.land (Z.lxor n 65535) 65535) 16 c in
  put_raw_a (Z.to_nat n) (d_dict d) (d_start d) e.
(** 1245-1308 *)
Definition block_output_a (d : tdefl) (finish : bool) : outcome obuf :=
  let buf := close_flags d in
  let end_ := d_p d - (if d_left d =? 8 then 1 else 0) in
  let* o1 := put_bits_a (if finish then 1 else 0) 1 (mk_obuf [] 0 (d_bb d) (d_nb d)) in
  let in_dict := u32 (d_lpos d - d_start d) <=? d_dsize d in
  let* x := (if d_total d <? 48 then start_static_block_a o1
             else start_dynamic_block_a (d_count0 d) (d_count1 d) o1) in
  let* y := compress_lz_codes_a (fst x) buf end_ (snd x) in
  let* o2 :=
    (if negb (d_total d =? 0) && (ob_n (snd y) - ob_n o1 + 1 >=? d_total d) && in_dict then
       raw_block_a d o1
     else if negb (fst y) then
       let* x' := start_static_block_a o1 in
       let* y' := compress_lz_codes_a (fst x') buf end_ (snd x') in
       Ok (snd y')
     else Ok (snd y)) in
  if finish then pad_byte_a o2 else Ok o2.
(** 1245-1343. 1256: MZ_ASSERT(!d->m_output_flush_remaining);
    1311: MZ_ASSERT(d->m_pOutput_buf < d->m_pOutput_buf_end) *)
Definition flush_block_a (d : tdefl) (finish : bool) (room : Z)
  : outcome (bytes * tdefl) :=
  match d_pend d with
  | _ :: _ => AssertFail
  | [] =>
      let* o := block_output_a d finish in
      if negb (ob_n o <? OUT_LIMIT) then AssertFail
      else
        let out := rev' (ob_rev o) in
        let direct := room >=? OUT_BUF_SIZE in
        Ok (if direct then out else ztake room out,
            mk_tdefl (d_dict d) (d_next d) (d_hash d) (d_lpos d) (d_lsize d) (d_dsize d) 0
              (u32 (d_start d + d_total d)) (close_flags d) 1 0 8 (repeat 0 288) (repeat 0 32)
              (ob_bb o) (ob_nb o) (if direct then [] else zdrop room out)
              (d_finished d) (d_wants d) (d_prev d))
  end.

(** 1348-1358: MZ_ASSERT(max_match_len <= TDEFL_MAX_MATCH_LEN) *)
Definition find_match_a (d : tdefl) : outcome (Z * Z) :=
  if d_lsize d <=? MAX_MATCH_LEN then Ok (find_match d) else AssertFail.
(** 1558-1578. 1562: MZ_ASSERT((match_len >= TDEFL_MIN_MATCH_LEN) && (match_dist >= 1) &&
    (match_dist <= TDEFL_LZ_DICT_SIZE)) *)
Definition record_match_a (d : tdefl) (match_len match_dist : Z) : outcome tdefl :=
  if (match_len >=? MIN_MATCH_LEN) && (match_dist >=? 1) && (match_dist <=? TDEFL_LZ_DICT_SIZE)
  then record_match d match_len match_dist else AssertFail.
(** 1580-1696. 1680: MZ_ASSERT(d->m_lookahead_size >= len_to_move) *)
Fixpoint compress_normal_a (turns : nat) (d : tdefl) (finish : bool) (room : Z) (src : bytes)
    (out : bytes) : outcome (bytes * bytes * tdefl) :=
  match turns with
  | O => Undef OutOfFuel
  | S turns' =>
      if match src with [] => false | _ => true end || (finish && negb (d_lsize d =? 0)) then
        let (d1, src1) := fill d src in
        let d2 := set_position d1 (d_lpos d1) (d_lsize d1)
                    (Z.min (TDEFL_LZ_DICT_SIZE - d_lsize d1) (d_dsize d1)) in
        if negb finish && (d_lsize d2 <? MAX_MATCH_LEN) then Ok (src1, out, d2)
        else
          let cur_pos := Z.land (d_lpos d2) DICT_MASK in
          let* m := find_match_a d2 in
          let (dist0, len0) := m in
          let drop := ((len0 =? MIN_MATCH_LEN) && (dist0 >=? 8 * 1024)) || (cur_pos =? dist0) in
          let dist1 := if drop then 0 else dist0 in
          let len1 := if drop then 0 else len0 in
          let* x := (if dist1 =? 0 then
                       let* d3 := record_literal d2 (arr_get 0 (d_dict d2) cur_pos) in Ok (d3, 1)
                     else let* d3 := record_match_a d2 len1 dist1 in Ok (d3, len1)) in
          let '(d3, move) := x in
          if d_lsize d3 >=? move then
            let d4 := set_position d3 (u32 (d_lpos d3 + move)) (u32 (d_lsize d3 - move))
                                   (Z.min (d_dsize d3 + move) TDEFL_LZ_DICT_SIZE) in
            if block_full d4 then
              let* y := flush_block_a d4 false (room - len out) in
              match d_pend (snd y) with
              | [] => compress_normal_a turns' (snd y) finish room src1 (out ++ fst y)
              | _ => Ok (src1, out ++ fst y, snd y)
              end
            else compress_normal_a turns' d4 finish room src1 out
          else AssertFail
      else Ok (src, out, d)
  end.
(** 1719-1778 *)
Definition tdefl_compress_a (d : tdefl) (src : bytes) (room : Z) (finish : bool)
  : outcome (Z * bytes * bytes * tdefl) :=
  if negb (d_prev d =? TDEFL_OKAY) || (d_wants d && negb finish) then
    Ok (TDEFL_BAD_PARAM, src, [], set_status d (d_finished d) (d_wants d) TDEFL_BAD_PARAM)
  else
    let d0 := set_status d (d_finished d) (d_wants d || finish) (d_prev d) in
    if match d_pend d0 with [] => false | _ => true end || d_finished d0 then
      let '(o, d1, status) := flush_output_buffer d0 room in
      Ok (status, src, o, d1)
    else
      let* x := compress_normal_a (compress_fuel d0 src) d0 finish room src [] in
      let '(src1, o1, d1) := x in
      let* y :=
        (if finish && (d_lsize d1 =? 0) && (match src1 with [] => true | _ => false end)
            && (match d_pend d1 with [] => true | _ => false end) then
           let* z := flush_block_a d1 true (room - len o1) in
           Ok (o1 ++ fst z, set_status (snd z) true (d_wants (snd z)) (d_prev (snd z)))
         else Ok (o1, d1)) in
      let '(o2, d2) := y in
      let '(o3, d3, status) := flush_output_buffer d2 (room - len o2) in
      Ok (status, src1, o2 ++ o3, d3).
(** 138-185 *)
Fixpoint deflate_loop_a (turns : nat) (d : tdefl) (src : bytes) (room : Z)
    (finish moved : bool) (out : bytes) : outcome (Z * bytes * bytes * tdefl) :=
  match turns with
  | O => Undef OutOfFuel
  | S turns' =>
      let* x := tdefl_compress_a d src (room - len out) finish in
      let '(status, src1, o, d1) := x in
      let out1 := out ++ o in
      let moved1 := moved || negb (len src1 =? len src) || negb (len o =? 0) in
      if status <? 0 then Ok (MZ_STREAM_ERROR, src1, out1, d1)
      else if status =? TDEFL_DONE then Ok (MZ_STREAM_END, src1, out1, d1)
      else if room - len out1 =? 0 then Ok (MZ_OK, src1, out1, d1)
      else if (match src1 with [] => true | _ => false end) && negb finish then
        Ok (if moved1 then MZ_OK else MZ_BUF_ERROR, src1, out1, d1)
      else deflate_loop_a turns' d1 src1 room finish moved1 out1
  end.
(** 138-185 *)
Definition mz_deflate_a (d : tdefl) (src : bytes) (room : Z) (finish : bool)
  : outcome (Z * bytes * bytes * tdefl) :=
  if d_prev d =? TDEFL_DONE then
    Ok (if finish then MZ_STREAM_END else MZ_BUF_ERROR, src, [], d)
  else deflate_loop_a 4 d src room finish false [].
(** src/zip.cpp 64-80, with its assertion 72 *)
Fixpoint deflate_chunk_a (turns : nat) (d : tdefl) (src : bytes) (finish : bool)
    (out : bytes) : outcome (Z * bytes * bytes * tdefl) :=
  match turns with
  | O => Undef OutOfFuel
  | S turns' =>
      let* x := mz_deflate_a d src CHUNK finish in
      let '(ret, src1, o, d1) := x in
      if ret =? MZ_STREAM_ERROR then AssertFail
      else if CHUNK - len o =? 0 then deflate_chunk_a turns' d1 src1 finish (out ++ o)
      else Ok (ret, src1, out ++ o, d1)
  end.
(** src/zip.cpp 47-83, with its assertions 80 and 83 *)
Fixpoint deflate_chunks_a (turns : nat) (d : tdefl) (input : bytes) (out : bytes)
  : outcome bytes :=
  match turns with
  | O => Undef OutOfFuel
  | S turns' =>
      let chunk := ztake CHUNK input in
      let rest := zdrop CHUNK input in
      let finish := len chunk <? CHUNK in
      let* x := deflate_chunk_a (length input + 300) d chunk finish out in
      let '(ret, src1, out1, d1) := x in
      if negb (len src1 =? 0) then AssertFail
      else if finish then
        if negb (ret =? MZ_STREAM_END) then AssertFail else Ok out1
      else deflate_chunks_a turns' d1 rest out1
  end.
(** src/zip.cpp 28-89 in a build with assertions *)
Definition npy_deflate_a (dict next buf : arr) (b : bytes) : outcome bytes :=
  deflate_chunks_a (S (length b)) (new_tdefl dict next buf) b [].
