(** The compressor and the decompressor on a host of either byte order.

    src/miniz/miniz.h 197-199 defines MINIZ_LITTLE_ENDIAN, MINIZ_HAS_64BIT_REGISTERS and
    MINIZ_USE_UNALIGNED_LOADS_AND_STORES as 1 whatever the host is, so three accesses of
    src/miniz/miniz.cpp read or write a whole word in the host's byte order where DEFLATE
    wants the least significant byte first: lines 31/648, 1121 and 1168. Tinfl.v and
    Tdefl.v model them on a little-endian host. Here the functions on the way to them are
    repeated with the host as a parameter; nothing else depends on it (the word accesses
    710-730 and 1346-1378 only move or compare words). The lemmas at the end show that on
    a little-endian host these are the functions of Tinfl.v and Tdefl.v. *)
From Coq Require Import String ZArith List Bool Lia.
From Verif Require Import Base Arr Tinfl Tdefl.
Import ListNotations.
Open Scope Z_scope.
Local Open Scope tinfl_scope.

Section Host.
(** The host's byte order, and whether assertions are on. *)
Variables big debug : bool.

(** ** Reading *)
(** 31, 648: MZ_READ_LE32 is *((const mz_uint32 * )(p)) *)
Definition take_word_on : T unit := fun s =>
  match ti_in s with
  | a :: b :: c :: d :: t =>
      add_bits (if big then d + 256 * c + 65536 * b + 16777216 * a
                else a + 256 * b + 65536 * c + 16777216 * d) 32 (set_in s t)
  | _ => RUndef OutOfBounds
  end.
(** 636-751 *)
Fixpoint codes_on (turns f : nat) (h0 h1 : huff) : T unit :=
  match turns with
  | O => tlift (Undef OutOfFuel)
  | S turns' =>
      let after sym :=
        if Z.land sym 511 =? 256 then tret tt
        else do_match f h1 (Z.land sym 511) ;;; codes_on turns' f h0 h1 in
      fun s =>
      if (len (ti_in s) <? 4) || (TINFL_LZ_DICT_SIZE - ti_cur s <? 2) then
        (c <- huff_decode f h0 ;;
         if c >=? 256 then after c
         else put_byte f (u8 c) ;;; codes_on turns' f h0 h1) s
      else
        (nb <- num_bits ;;
         (if nb <? 30 then take_word_on else tret tt) ;;;
         c <- fast_entry h0 ;;
         if negb (Z.land c 256 =? 0) then after c
         else
           c2 <- fast_entry h0 ;;
           store (u8 c) ;;;
           if negb (Z.land c2 256 =? 0) then after c2
           else store (u8 c2) ;;; codes_on turns' f h0 h1) s
  end.
(** 575-579, then 590-619 for both tables and 636-751 *)
Definition fixed_block_on (turns f : nat) : T unit :=
  h1 <- build_table (repeat 5 32) ;;
  h0 <- build_table static_sizes ;;
  codes_on turns f h0 h1.
(** 580-631, then 636-751 *)
Definition dynamic_block_on (turns f : nat) : T unit :=
  a <- get_bits f 5 ;;
  b <- get_bits f 5 ;;
  c <- get_bits f 4 ;;
  let n0 := a + 257 in
  let n1 := b + 1 in
  cl <- read_code_sizes f (ztake (c + 4) s_length_dezigzag) (repeat 0 19) ;;
  h2 <- build_table cl ;;
  l <- read_lengths 320 f h2 (n0 + n1) [] ;;
  if negb (n0 + n1 =? len l) then tfail
  else
    h1 <- build_table (zdrop n0 l) ;;
    h0 <- build_table (ztake n0 l) ;;
    codes_on turns f h0 h1.
(** 537-751 *)
Fixpoint blocks_on (n turns f : nat) : T unit :=
  match n with
  | O => tlift (Undef OutOfFuel)
  | S n' =>
      x <- get_bits f 3 ;;
      let type := Z.shiftr x 1 in
      (if type =? 0 then stored_block turns f
       else if type =? 3 then tfail
       else if type =? 1 then fixed_block_on turns f
       else dynamic_block_on turns f) ;;;
      if Z.land x 1 =? 0 then blocks_on n' turns f else tret tt
  end.
(** 251-280, 781 *)
Definition new_inflate_on (fuel : nat) : inflate_state :=
  mk_inflate (blocks_on fuel fuel fuel) 0 0 arr_empty 0 0 T_NEEDS_MORE_INPUT.
(** ** Writing *)
(** 1121: *(const mz_uint16 * )(pLZ_codes + 1) *)
Definition half_on (a b : Z) : Z := if big then b + 256 * a else a + 256 * b.
(** 1168-1169: of the eight bytes stored, those before the new m_pOutput_buf (what is
    behind it is overwritten by the next store, or never read) *)
Definition kept_on (n : nat) (v : Z) : bytes :=
  if big then firstn n (rev (low_bytes 8 v)) else low_bytes n v.
(** 1121-1138: a match. A swapped distance can be one that never occurred, so the
    assertion 1134 and the bound of s_tdefl_large_dist_sym (1129-1130) matter; they are
    checked on a big-endian host only: DeflLz.v shows that no other meets them. *)
Definition match_on (t : tables) (l d : Z) (x : Z * Z) : outcome (Z * Z) :=
  if big && (Z.shiftr d 8 >=? 128) then Undef OutOfBounds
  else if big && debug && (at_index (t_sizes1 t) (dist_sym d) =? 0) then AssertFail
  else Ok (match_fast t l d x).
(** 1113-1174 *)
Fixpoint lz_loop_on (turns : nat) (t : tables) (buf : arr) (end_ p flags : Z) (o : obuf)
  : outcome (option obuf) :=
  if p <? end_ then
    match turns with
    | O => Undef OutOfFuel
    | S turns' =>
        let* y := (if flags =? 1 then let* f := lz_at buf p in Ok (Z.lor f 256, p + 1)
                   else Ok (flags, p)) in
        let '(flags1, p1) := y in
        let x0 := (ob_bb o, ob_nb o) in
        let* z :=
          (if negb (Z.land flags1 1 =? 0) then
             let* l := lz_at buf p1 in
             let* a := lz_at buf (p1 + 1) in
             let* b := lz_at buf (p1 + 2) in
             let* x := match_on t l (half_on a b) x0 in
             Ok (x, flags1, p1 + 3)
           else
             let* c := lz_at buf p1 in
             let x1 := lit_fast t c x0 in
             if (Z.land flags1 2 =? 0) && (p1 + 1 <? end_) then
               let flags2 := Z.shiftr flags1 1 in
               let* c := lz_at buf (p1 + 1) in
               let x2 := lit_fast t c x1 in
               if (Z.land flags2 2 =? 0) && (p1 + 2 <? end_) then
                 let* c := lz_at buf (p1 + 2) in
                 Ok (lit_fast t c x2, Z.shiftr flags2 1, p1 + 3)
               else Ok (x2, flags2, p1 + 2)
             else Ok (x1, flags1, p1 + 1)) in
        let '((bb, nb), flags3, p3) := z in
        if ob_n o >=? OUT_LIMIT then Ok None
        else
          let k := Z.shiftr nb 3 in
          lz_loop_on turns' t buf end_ p3 (Z.shiftr flags3 1)
            (mk_obuf (rev_append (kept_on (Z.to_nat k) bb) (ob_rev o)) (ob_n o + k)
                     (Z.shiftr bb (8 * k)) (Z.land nb 7))
    end
  else Ok (Some o).
(** 1102-1189 *)
Definition compress_lz_codes_on (t : tables) (buf : arr) (end_ : Z) (o : obuf)
  : outcome (bool * obuf) :=
  let* r := lz_loop_on (Z.to_nat LZ_CODE_BUF_SIZE) t buf end_ 0 1 o in
  match r with
  | None => Ok (false, o)
  | Some o1 =>
      let o2 := mk_obuf (ob_rev o1) (ob_n o1) 0 0 in
      let o3 := if ob_nb o1 =? 0 then o2 else put_bits (low_bits (ob_bb o1) (ob_nb o1)) (ob_nb o1) o2 in
      let o4 := put_bits (at_index (t_codes0 t) 256) (at_index (t_sizes0 t) 256) o3 in
      Ok (ob_n o4 <? OUT_LIMIT, o4)
  end.
(** 1245-1308 *)
Definition block_output_on (d : tdefl) (finish : bool) : outcome obuf :=
  let buf := close_flags d in
  let end_ := d_p d - (if d_left d =? 8 then 1 else 0) in
  let o1 := put_bits (if finish then 1 else 0) 1 (mk_obuf [] 0 (d_bb d) (d_nb d)) in
  let in_dict := u32 (d_lpos d - d_start d) <=? d_dsize d in
  let* x := (if d_total d <? 48 then start_static_block o1
             else start_dynamic_block (d_count0 d) (d_count1 d) o1) in
  let* y := compress_lz_codes_on (fst x) buf end_ (snd x) in
  let* o2 :=
    (if negb (d_total d =? 0) && (ob_n (snd y) - ob_n o1 + 1 >=? d_total d) && in_dict then
       let n := d_total d in
       let a := pad_byte (put_bits 0 2 o1) in
       let b := put_bits (Z.land (Z.lxor n 65535) 65535) 16 (put_bits (Z.land n 65535) 16 a) in
       Ok (put_raw (Z.to_nat n) (d_dict d) (d_start d) b)
     else if negb (fst y) then
       let* x' := start_static_block o1 in
       let* y' := compress_lz_codes_on (fst x') buf end_ (snd x') in
       Ok (snd y')
     else Ok (snd y)) in
  Ok (if finish then pad_byte o2 else o2).
(** 1310-1343 *)
Definition flush_block_on (d : tdefl) (finish : bool) (room : Z) : outcome (bytes * tdefl) :=
  let* o := block_output_on d finish in
  let out := rev' (ob_rev o) in
  let direct := room >=? OUT_BUF_SIZE in
  Ok (if direct then out else ztake room out,
      mk_tdefl (d_dict d) (d_next d) (d_hash d) (d_lpos d) (d_lsize d) (d_dsize d) 0
        (u32 (d_start d + d_total d)) (close_flags d) 1 0 8 (repeat 0 288) (repeat 0 32)
        (ob_bb o) (ob_nb o) (if direct then [] else zdrop room out)
        (d_finished d) (d_wants d) (d_prev d)).
(** 1580-1696 *)
Fixpoint compress_normal_on (turns : nat) (d : tdefl) (finish : bool) (room : Z) (src : bytes)
    (out : bytes) : outcome (bytes * bytes * tdefl) :=
  match turns with
  | O => Undef OutOfFuel
  | S turns' =>
      if match src with [] => false | _ => true end || (finish && negb (d_lsize d =? 0)) then
        let (d1, src1) := fill d src in
        let d2 := set_position d1 (d_lpos d1) (d_lsize d1)
                    (Z.min (TDEFL_LZ_DICT_SIZE - d_lsize d1) (d_dsize d1)) in
        if negb finish && (d_lsize d2 <? MAX_MATCH_LEN) then Ok (src1, out, d2)
        else
          let cur_pos := Z.land (d_lpos d2) DICT_MASK in
          let (dist0, len0) := find_match d2 in
          let drop := ((len0 =? MIN_MATCH_LEN) && (dist0 >=? 8 * 1024)) || (cur_pos =? dist0) in
          let dist1 := if drop then 0 else dist0 in
          let len1 := if drop then 0 else len0 in
          let* x := (if dist1 =? 0 then
                       let* d3 := record_literal d2 (arr_get 0 (d_dict d2) cur_pos) in Ok (d3, 1)
                     else let* d3 := record_match d2 len1 dist1 in Ok (d3, len1)) in
          let '(d3, move) := x in
          let d4 := set_position d3 (u32 (d_lpos d3 + move)) (u32 (d_lsize d3 - move))
                                 (Z.min (d_dsize d3 + move) TDEFL_LZ_DICT_SIZE) in
          if block_full d4 then
            let* y := flush_block_on d4 false (room - len out) in
            match d_pend (snd y) with
            | [] => compress_normal_on turns' (snd y) finish room src1 (out ++ fst y)
            | _ => Ok (src1, out ++ fst y, snd y)
            end
          else compress_normal_on turns' d4 finish room src1 out
      else Ok (src, out, d)
  end.
(** 1719-1778 *)
Definition tdefl_compress_on (d : tdefl) (src : bytes) (room : Z) (finish : bool)
  : outcome (Z * bytes * bytes * tdefl) :=
  if negb (d_prev d =? TDEFL_OKAY) || (d_wants d && negb finish) then
    Ok (TDEFL_BAD_PARAM, src, [], set_status d (d_finished d) (d_wants d) TDEFL_BAD_PARAM)
  else
    let d0 := set_status d (d_finished d) (d_wants d || finish) (d_prev d) in
    if match d_pend d0 with [] => false | _ => true end || d_finished d0 then
      let '(o, d1, status) := flush_output_buffer d0 room in
      Ok (status, src, o, d1)
    else
      let* x := compress_normal_on (compress_fuel d0 src) d0 finish room src [] in
      let '(src1, o1, d1) := x in
      let* y :=
        (if finish && (d_lsize d1 =? 0) && (match src1 with [] => true | _ => false end)
            && (match d_pend d1 with [] => true | _ => false end) then
           let* z := flush_block_on d1 true (room - len o1) in
           Ok (o1 ++ fst z, set_status (snd z) true (d_wants (snd z)) (d_prev (snd z)))
         else Ok (o1, d1)) in
      let '(o2, d2) := y in
      let '(o3, d3, status) := flush_output_buffer d2 (room - len o2) in
      Ok (status, src1, o2 ++ o3, d3).
(** 138-185 *)
Fixpoint deflate_loop_on (turns : nat) (d : tdefl) (src : bytes) (room : Z) (finish moved : bool)
    (out : bytes) : outcome (Z * bytes * bytes * tdefl) :=
  match turns with
  | O => Undef OutOfFuel
  | S turns' =>
      let* x := tdefl_compress_on d src (room - len out) finish in
      let '(status, src1, o, d1) := x in
      let out1 := out ++ o in
      let moved1 := moved || negb (len src1 =? len src) || negb (len o =? 0) in
      if status <? 0 then Ok (MZ_STREAM_ERROR, src1, out1, d1)
      else if status =? TDEFL_DONE then Ok (MZ_STREAM_END, src1, out1, d1)
      else if room - len out1 =? 0 then Ok (MZ_OK, src1, out1, d1)
      else if (match src1 with [] => true | _ => false end) && negb finish then
        Ok (if moved1 then MZ_OK else MZ_BUF_ERROR, src1, out1, d1)
      else deflate_loop_on turns' d1 src1 room finish moved1 out1
  end.
(** 138-185 *)
Definition mz_deflate_on (d : tdefl) (src : bytes) (room : Z) (finish : bool)
  : outcome (Z * bytes * bytes * tdefl) :=
  if d_prev d =? TDEFL_DONE then
    Ok (if finish then MZ_STREAM_END else MZ_BUF_ERROR, src, [], d)
  else deflate_loop_on 4 d src room finish false [].
End Host.

(** ** src/zip.cpp on host [v] *)
(** src/zip.cpp 91-161 on host [v] *)
Definition npy_inflate_on (v : env) (z : bytes) : outcome bytes :=
  inflate_chunks (inflate_fuel z) (inflate_fuel z) (new_inflate_on (host_big v) (inflate_fuel z)) MZ_OK z [].

(** src/zip.cpp 64-80 *)
Fixpoint deflate_chunk_on (turns : nat) (v : env) (d : tdefl) (src : bytes) (finish : bool) (out : bytes)
  : outcome (Z * bytes * bytes * tdefl) :=
  match turns with
  | O => Undef OutOfFuel
  | S turns' =>
      let* x := mz_deflate_on (host_big v) (dbg v) d src CHUNK finish in
      let '(ret, src1, o, d1) := x in
      if dbg v && (ret =? MZ_STREAM_ERROR) then AssertFail
      else if CHUNK - len o =? 0 then deflate_chunk_on turns' v d1 src1 finish (out ++ o)
      else Ok (ret, src1, out ++ o, d1)
  end.
(** src/zip.cpp 47-83 *)
Fixpoint deflate_chunks_on (turns : nat) (v : env) (d : tdefl) (input : bytes) (out : bytes)
  : outcome bytes :=
  match turns with
  | O => Undef OutOfFuel
  | S turns' =>
      let chunk := ztake CHUNK input in
      let rest := zdrop CHUNK input in
      let finish := len chunk <? CHUNK in
      let* x := deflate_chunk_on (length input + 300) v d chunk finish out in
      let '(ret, src1, out1, d1) := x in
      if dbg v && negb (len src1 =? 0) then AssertFail
      else if finish then
        if dbg v && negb (ret =? MZ_STREAM_END) then AssertFail else Ok out1
      else deflate_chunks_on turns' v d1 rest out1
  end.
(** src/zip.cpp 28-89 on host [v], starting from arbitrary heap contents *)
Definition npy_deflate_on (v : env) (dict next buf : arr) (b : bytes) : outcome bytes :=
  deflate_chunks_on (S (length b)) v (new_tdefl dict next buf) b [].

(** ** On a little-endian host these are the functions of Tinfl.v and Tdefl.v *)
Lemma codes_little : codes_on false = codes.
Proof. reflexivity. Qed.
Lemma fixed_block_little : fixed_block_on false = fixed_block.
Proof. cbv delta [fixed_block_on fixed_block]. cbv beta. rewrite codes_little. reflexivity. Qed.
Lemma dynamic_block_little : dynamic_block_on false = dynamic_block.
Proof. cbv delta [dynamic_block_on dynamic_block]. cbv beta. rewrite codes_little. reflexivity. Qed.
Lemma blocks_little : blocks_on false = blocks.
Proof. cbv delta [blocks_on blocks]. cbv beta. rewrite fixed_block_little, dynamic_block_little. reflexivity. Qed.
Lemma npy_inflate_little v z : host_big v = false -> npy_inflate_on v z = npy_inflate z.
Proof. intros H. unfold npy_inflate_on, new_inflate_on. rewrite H, blocks_little. reflexivity. Qed.

Lemma lz_loop_little debug : lz_loop_on false debug = lz_loop.
Proof. reflexivity. Qed.
Lemma compress_lz_codes_little debug : compress_lz_codes_on false debug = compress_lz_codes.
Proof. cbv delta [compress_lz_codes_on compress_lz_codes]. cbv beta. rewrite lz_loop_little. reflexivity. Qed.
Lemma block_output_little debug : block_output_on false debug = block_output.
Proof. cbv delta [block_output_on block_output]. cbv beta. rewrite compress_lz_codes_little. reflexivity. Qed.
Lemma flush_block_little debug : flush_block_on false debug = flush_block.
Proof. cbv delta [flush_block_on flush_block]. cbv beta. rewrite block_output_little. reflexivity. Qed.
Lemma compress_normal_little debug : compress_normal_on false debug = compress_normal.
Proof. cbv delta [compress_normal_on compress_normal]. cbv beta. rewrite flush_block_little. reflexivity. Qed.
Lemma tdefl_compress_little debug : tdefl_compress_on false debug = tdefl_compress.
Proof. cbv delta [tdefl_compress_on tdefl_compress]. cbv beta. rewrite compress_normal_little, flush_block_little. reflexivity. Qed.
Lemma deflate_loop_little debug : deflate_loop_on false debug = deflate_loop.
Proof. cbv delta [deflate_loop_on deflate_loop]. cbv beta. rewrite tdefl_compress_little. reflexivity. Qed.
Lemma mz_deflate_little debug : mz_deflate_on false debug = mz_deflate.
Proof. cbv delta [mz_deflate_on mz_deflate]. cbv beta. rewrite deflate_loop_little. reflexivity. Qed.
Lemma obind_same {A B} (o : outcome A) (f g : A -> outcome B) : (forall a, f a = g a) -> obind o f = obind o g.
Proof. intros H. destruct o; cbn [obind]; [apply H|reflexivity|reflexivity|reflexivity]. Qed.
Lemma deflate_chunk_little v : host_big v = false -> forall turns d src finish out,
  deflate_chunk_on turns v d src finish out = deflate_chunk turns v d src finish out.
Proof.
  intros H. induction turns as [|n IH]; intros d src finish out; [reflexivity|]. cbn [deflate_chunk_on deflate_chunk].
  rewrite H, mz_deflate_little. apply obind_same. intros [[[r s] o] d1].
  destruct (dbg v && (r =? MZ_STREAM_ERROR)); [reflexivity|]. destruct (CHUNK - len o =? 0); [apply IH|reflexivity].
Qed.
Lemma deflate_chunks_little v : host_big v = false -> forall turns d input out,
  deflate_chunks_on turns v d input out = deflate_chunks turns v d input out.
Proof.
  intros H. induction turns as [|n IH]; intros d input out; [reflexivity|]. cbn [deflate_chunks_on deflate_chunks]. cbv zeta.
  rewrite deflate_chunk_little by exact H. apply obind_same. intros [[[r s] o] d1].
  destruct (dbg v && negb (len s =? 0)); [reflexivity|]. destruct (len (ztake CHUNK input) <? CHUNK); [reflexivity|apply IH].
Qed.
Lemma npy_deflate_little v dict next buf b : host_big v = false -> npy_deflate_on v dict next buf b = npy_deflate v dict next buf b.
Proof. intros H. now apply deflate_chunks_little. Qed.
