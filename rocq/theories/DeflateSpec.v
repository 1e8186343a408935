(** RFC 1951 (DEFLATE), written as relations between bits and bytes; independent of
    src/miniz.  References are to sections of the RFC. *)
From Coq Require Import ZArith List Bool Lia.
From Verif Require Import Base.
Import ListNotations.
Open Scope Z_scope.

(** 3.1.1: a number in [n] bits, least significant first; a byte string as bits. *)
Fixpoint lsb_bits (n : nat) (v : Z) : list bool :=
  match n with
  | O => []
  | S m => Z.odd v :: lsb_bits m (v / 2)
  end.
Definition bits_of (l : bytes) : list bool := flat_map (lsb_bits 8) l.

(** 3.2.2: a code is given by the lengths of its codewords, one per symbol, 0 for
    an unused symbol.  Codewords are handed out in order of length, then of symbol,
    without gaps; so the codeword of a symbol with length l, read as a number, is the
    total space 2^(l-x) taken by the codewords (of length x) that come before it.
    Codewords are sent most significant bit first. *)
Definition code_len (L : list Z) (s : Z) : Z := nth (Z.to_nat s) L 0.
Fixpoint space_before (L : list Z) (i s l : Z) : Z :=
  match L with
  | [] => 0
  | x :: t =>
      (if (0 <? x) && ((x <? l) || ((x =? l) && (i <? s))) then 2 ^ (l - x) else 0)
      + space_before t (i + 1) s l
  end.
Definition code_value (L : list Z) (s : Z) : Z := space_before L 0 s (code_len L s).
Definition codeword (L : list Z) (s : Z) : list bool :=
  rev (lsb_bits (Z.to_nat (code_len L s)) (code_value L s)).
Definition in_code (L : list Z) (s : Z) : Prop := 0 <= s < len L /\ 0 < code_len L s.

(** 3.2.7: lengths are at most 15; the code fills the space exactly, except that a
    code may have one codeword or none. *)
Definition space_of (x : Z) : Z := if 0 <? x then 2 ^ (15 - x) else 0.
Fixpoint zsum (l : list Z) : Z := match l with [] => 0 | x :: t => x + zsum t end.
Definition used_symbols (L : list Z) : Z := zsum (map (fun x => if 0 <? x then 1 else 0) L).
Definition valid_code (L : list Z) : Prop :=
  Forall (fun x => 0 <= x <= 15) L /\
  (zsum (map space_of L) = 2 ^ 15 \/ used_symbols L <= 1).

(** 3.2.5: what the compressed data of a block says, and its bits. *)
Inductive token :=
| Lit (c : Z)            (* a byte *)
| Copy (n d : Z).        (* n bytes, starting d bytes back *)

(** base value and number of extra bits of length codes 257 .. 285 *)
Definition length_codes : list (Z * Z) :=
  [ (3,0); (4,0); (5,0); (6,0); (7,0); (8,0); (9,0); (10,0);
    (11,1); (13,1); (15,1); (17,1); (19,2); (23,2); (27,2); (31,2);
    (35,3); (43,3); (51,3); (59,3); (67,4); (83,4); (99,4); (115,4);
    (131,5); (163,5); (195,5); (227,5); (258,0) ].
(** base value and number of extra bits of distance codes 0 .. 29 *)
Definition distance_codes : list (Z * Z) :=
  [ (1,0); (2,0); (3,0); (4,0); (5,1); (7,1); (9,2); (13,2); (17,3); (25,3);
    (33,4); (49,4); (65,5); (97,5); (129,6); (193,6); (257,7); (385,7);
    (513,8); (769,8); (1025,9); (1537,9); (2049,10); (3073,10); (4097,11);
    (6145,11); (8193,12); (12289,12); (16385,13); (24577,13) ].

Inductive token_bits (LL DL : list Z) : token -> list bool -> Prop :=
| Lit_bits c : 0 <= c < 256 -> in_code LL c -> token_bits LL DL (Lit c) (codeword LL c)
| Copy_bits k lb lx le j db dx de :
    znth length_codes k = Some (lb, lx) -> 0 <= le < 2 ^ lx -> in_code LL (257 + k) ->
    znth distance_codes j = Some (db, dx) -> 0 <= de < 2 ^ dx -> in_code DL j ->
    token_bits LL DL (Copy (lb + le) (db + de))
      (codeword LL (257 + k) ++ lsb_bits (Z.to_nat lx) le
       ++ codeword DL j ++ lsb_bits (Z.to_nat dx) de).
Inductive tokens_bits (LL DL : list Z) : list token -> list bool -> Prop :=
| No_tokens : in_code LL 256 -> tokens_bits LL DL [] (codeword LL 256)
| More_tokens t b ts bs :
    token_bits LL DL t b -> tokens_bits LL DL ts bs ->
    tokens_bits LL DL (t :: ts) (b ++ bs).

(** What tokens mean: a copy repeats bytes already produced, one at a time, so it
    may overlap what it produces. *)
Fixpoint copy (n : nat) (d : Z) (out : bytes) : bytes :=
  match n with
  | O => out
  | S m => copy m d (out ++ [nth (Z.to_nat (len out - d)) out 0])
  end.
Inductive expands : bytes -> list token -> bytes -> Prop :=
| Expand_nil out : expands out [] out
| Expand_lit out c ts r : expands (out ++ [c]) ts r -> expands out (Lit c :: ts) r
| Expand_copy out n d ts r :
    1 <= d <= len out -> expands (copy (Z.to_nat n) d out) ts r ->
    expands out (Copy n d :: ts) r.

(** 3.2.6: fixed codes *)
Definition fixed_lengths : list Z :=
  repeat 8 144 ++ repeat 9 112 ++ repeat 7 24 ++ repeat 8 8.
Definition fixed_distances : list Z := repeat 5 32.

(** 3.2.7: dynamic codes.  [lengths_bits CL sofar bits all]: after the lengths
    [sofar], [bits] bring them to [all]. *)
Inductive lengths_bits (CL : list Z) : list Z -> list bool -> list Z -> Prop :=
| Lengths_done l : lengths_bits CL l [] l
| Lengths_one l x b r :
    0 <= x <= 15 -> in_code CL x -> lengths_bits CL (l ++ [x]) b r ->
    lengths_bits CL l (codeword CL x ++ b) r
| Lengths_repeat l x e b r :
    in_code CL 16 -> 0 <= e < 4 ->
    lengths_bits CL (l ++ [x] ++ zrepeat x (3 + e)) b r ->
    lengths_bits CL (l ++ [x]) (codeword CL 16 ++ lsb_bits 2 e ++ b) r
| Lengths_zeros l e b r :
    in_code CL 17 -> 0 <= e < 8 -> lengths_bits CL (l ++ zrepeat 0 (3 + e)) b r ->
    lengths_bits CL l (codeword CL 17 ++ lsb_bits 3 e ++ b) r
| Lengths_many_zeros l e b r :
    in_code CL 18 -> 0 <= e < 128 -> lengths_bits CL (l ++ zrepeat 0 (11 + e)) b r ->
    lengths_bits CL l (codeword CL 18 ++ lsb_bits 7 e ++ b) r.

(** the order in which the lengths of the code-length code are sent *)
Definition length_order : list Z :=
  [16; 17; 18; 0; 8; 7; 9; 6; 10; 5; 11; 4; 12; 3; 13; 2; 14; 1; 15].

(** 3.2.3: one block, after its final-block bit.  [pos] is the number of bits sent
    before it, which decides the padding of a stored block. *)
Inductive block_bits (pos : Z) (out : bytes) : list bool -> bytes -> Prop :=
| Stored_block pad data :
    (pos + 2 + len pad) mod 8 = 0 -> len pad < 8 -> len data < 65536 -> bytes_ok data ->
    block_bits pos out
      (lsb_bits 2 0 ++ pad ++ lsb_bits 16 (len data) ++ lsb_bits 16 (65535 - len data)
       ++ bits_of data) (out ++ data)
| Fixed_block ts bs r :
    tokens_bits fixed_lengths fixed_distances ts bs -> expands out ts r ->
    block_bits pos out (lsb_bits 2 1 ++ bs) r
| Dynamic_block nl nd nc CL lens cls LL DL ts bs r :
    257 <= nl <= 288 -> 1 <= nd <= 32 -> 4 <= nc <= 19 ->
    len CL = 19 -> Forall (fun x => 0 <= x <= 7) CL -> valid_code CL ->
    (* lengths not sent are 0 *)
    (forall i, nc <= i -> forall s, znth length_order i = Some s -> code_len CL s = 0) ->
    lengths_bits CL [] lens (LL ++ DL) -> len LL = nl -> len DL = nd ->
    cls = flat_map (fun s => lsb_bits 3 (code_len CL s)) (ztake nc length_order) ->
    valid_code LL -> valid_code DL ->
    tokens_bits LL DL ts bs -> expands out ts r ->
    block_bits pos out
      (lsb_bits 2 2 ++ lsb_bits 5 (nl - 257) ++ lsb_bits 5 (nd - 1) ++ lsb_bits 4 (nc - 4)
       ++ cls ++ lens ++ bs) r.

Inductive stream_bits : Z -> bytes -> list bool -> bytes -> Prop :=
| Last_block pos out b r :
    block_bits (pos + 1) out b r -> stream_bits pos out (true :: b) r
| Next_block pos out b out1 bs r :
    block_bits (pos + 1) out b out1 -> stream_bits (pos + 1 + len b) out1 bs r ->
    stream_bits pos out (false :: b ++ bs) r.

(** [z] is a DEFLATE stream for [b]; the last byte is filled up with anything, and
    [deflate_prefix] also allows more bytes to follow. *)
Definition deflates_to (z b : bytes) : Prop :=
  bytes_ok z /\ exists bits pad, bits_of z = bits ++ pad /\ len pad < 8 /\ stream_bits 0 [] bits b.
Definition deflate_prefix (z b : bytes) : Prop :=
  bytes_ok z /\ exists bits more, bits_of z = bits ++ more /\ stream_bits 0 [] bits b.
