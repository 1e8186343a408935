(** What can be wrong with bytes that should be a DEFLATE stream (RFC 1951), in the terms
    of DeflateSpec.v; independent of src/miniz. *)
From Coq Require Import ZArith List Bool Lia.
From Verif Require Import Base DeflateSpec.
Import ListNotations.
Open Scope Z_scope.

(** [bits] end inside a codeword; [bits] do not begin with a codeword *)
Definition stops_inside (L : list Z) (bits : list bool) : Prop :=
  exists s more, in_code L s /\ more <> [] /\ codeword L s = bits ++ more.
Definition no_codeword (L : list Z) (bits : list bool) : Prop :=
  forall s more, in_code L s -> bits <> codeword L s ++ more.
(** Only a code with at most one codeword leaves bits without a meaning (3.2.7). *)
Definition meaningless (L : list Z) (bits : list bool) : Prop :=
  used_symbols L <= 1 /\ no_codeword L bits /\ ~ stops_inside L bits.

(** the first tokens of a block, without the end-of-block code *)
Inductive tokens_so_far (LL DL : list Z) : list token -> list bool -> Prop :=
| So_far_nil : tokens_so_far LL DL [] []
| So_far_cons t b ts bs :
    token_bits LL DL t b -> tokens_so_far LL DL ts bs ->
    tokens_so_far LL DL (t :: ts) (b ++ bs).

(** ** The data end inside a token *)
Inductive token_cut (LL DL : list Z) : list bool -> Prop :=
| Cut_symbol b : stops_inside LL b -> token_cut LL DL b
| Cut_length k lb lx e :
    znth length_codes k = Some (lb, lx) -> in_code LL (257 + k) -> len e < lx ->
    token_cut LL DL (codeword LL (257 + k) ++ e)
| Cut_distance k lb lx le b :
    znth length_codes k = Some (lb, lx) -> in_code LL (257 + k) -> len le = lx ->
    stops_inside DL b ->
    token_cut LL DL (codeword LL (257 + k) ++ le ++ b)
| Cut_extra k lb lx le j db dx e :
    znth length_codes k = Some (lb, lx) -> in_code LL (257 + k) -> len le = lx ->
    znth distance_codes j = Some (db, dx) -> in_code DL j -> len e < dx ->
    token_cut LL DL (codeword LL (257 + k) ++ le ++ codeword DL j ++ e).

(** ** A token that means nothing *)
Inductive token_senseless (LL DL : list Z) (out : bytes) : list bool -> Prop :=
| Bits_without_meaning b : meaningless LL b -> token_senseless LL DL out b
| Length_symbol_unknown s b :
    286 <= s -> in_code LL s -> token_senseless LL DL out (codeword LL s ++ b)
| Distance_without_meaning k lb lx le b :
    znth length_codes k = Some (lb, lx) -> in_code LL (257 + k) -> len le = lx ->
    meaningless DL b ->
    token_senseless LL DL out (codeword LL (257 + k) ++ le ++ b)
| Distance_symbol_unknown k lb lx le s b :
    znth length_codes k = Some (lb, lx) -> in_code LL (257 + k) -> len le = lx ->
    30 <= s -> in_code DL s ->
    token_senseless LL DL out (codeword LL (257 + k) ++ le ++ codeword DL s ++ b)
| Distance_too_far n d b more :
    token_bits LL DL (Copy n d) b -> len out < d ->
    token_senseless LL DL out (b ++ more).

(** ** The code lengths of a dynamic block *)
(** symbol, least number of repetitions, number of extra bits *)
Definition repeat_codes : list (Z * Z * Z) := [(16, 3, 2); (17, 3, 3); (18, 11, 7)].
(** [l]: the lengths known so far, fewer than [total] *)
Inductive lengths_fault (CL : list Z) (total : Z) (l : list Z) : list bool -> Prop :=
| Lengths_stop b : stops_inside CL b -> lengths_fault CL total l b
| Nothing_to_repeat b : l = [] -> in_code CL 16 -> lengths_fault CL total l (codeword CL 16 ++ b)
| Lengths_stop_extra s base ex e :
    In (s, base, ex) repeat_codes -> in_code CL s -> len e < ex ->
    lengths_fault CL total l (codeword CL s ++ e)
| Too_many_lengths s base ex e b :
    In (s, base, ex) repeat_codes -> in_code CL s -> 0 <= e < 2 ^ ex ->
    total < len l + base + e ->
    lengths_fault CL total l (codeword CL s ++ lsb_bits (Z.to_nat ex) e ++ b).
(** the start of a dynamic block, after its type *)
Definition dynamic_start (nl nd nc : Z) (CL : list Z) (bits : list bool) : Prop :=
  257 <= nl <= 288 /\ 1 <= nd <= 32 /\ 4 <= nc <= 19 /\
  len CL = 19 /\ Forall (fun x => 0 <= x <= 7) CL /\
  (forall i, nc <= i -> forall s, znth length_order i = Some s -> code_len CL s = 0) /\
  bits = lsb_bits 5 (nl - 257) ++ lsb_bits 5 (nd - 1) ++ lsb_bits 4 (nc - 4)
         ++ flat_map (fun s => lsb_bits 3 (code_len CL s)) (ztake nc length_order).

(** ** Blocks *)
(** Faults a decoder has to notice: [bits] are all that is left after the final-block
    bit; [r] is what was produced before the fault. *)
Inductive block_fault (pos : Z) (out : bytes) : list bool -> bytes -> Prop :=
| Type_cut b : len b < 2 -> block_fault pos out b out
| Type_reserved b : block_fault pos out (lsb_bits 2 3 ++ b) out
| Stored_lengths_cut pad b :
    (pos + 2 + len pad) mod 8 = 0 -> len pad < 8 -> len b < 32 ->
    block_fault pos out (lsb_bits 2 0 ++ pad ++ b) out
| Stored_lengths_differ pad n m b :
    (pos + 2 + len pad) mod 8 = 0 -> len pad < 8 ->
    0 <= n < 65536 -> 0 <= m < 65536 -> m <> 65535 - n ->
    block_fault pos out (lsb_bits 2 0 ++ pad ++ lsb_bits 16 n ++ lsb_bits 16 m ++ b) out
| Stored_data_cut pad n data :
    (pos + 2 + len pad) mod 8 = 0 -> len pad < 8 ->
    len data < n < 65536 -> bytes_ok data ->
    block_fault pos out (lsb_bits 2 0 ++ pad ++ lsb_bits 16 n ++ lsb_bits 16 (65535 - n) ++ bits_of data)
      (out ++ data)
| Fixed_cut ts bs b r :
    tokens_so_far fixed_lengths fixed_distances ts bs -> expands out ts r ->
    token_cut fixed_lengths fixed_distances b ->
    block_fault pos out (lsb_bits 2 1 ++ bs ++ b) r
| Dynamic_counts_cut b : len b < 14 -> block_fault pos out (lsb_bits 2 2 ++ b) out
| Dynamic_code_lengths_cut nl nd nc b :
    257 <= nl <= 288 -> 1 <= nd <= 32 -> 4 <= nc <= 19 -> len b < 3 * nc ->
    block_fault pos out
      (lsb_bits 2 2 ++ lsb_bits 5 (nl - 257) ++ lsb_bits 5 (nd - 1) ++ lsb_bits 4 (nc - 4) ++ b) out
| Dynamic_code_length_code_invalid nl nd nc CL h b :
    dynamic_start nl nd nc CL h -> ~ valid_code CL ->
    block_fault pos out (lsb_bits 2 2 ++ h ++ b) out
| Dynamic_lengths_fault nl nd nc CL h bl l b :
    dynamic_start nl nd nc CL h -> valid_code CL ->
    lengths_bits CL [] bl l -> len l < nl + nd -> lengths_fault CL (nl + nd) l b ->
    block_fault pos out (lsb_bits 2 2 ++ h ++ bl ++ b) out
| Dynamic_code_invalid nl nd nc CL h bl LL DL b :
    dynamic_start nl nd nc CL h -> valid_code CL ->
    lengths_bits CL [] bl (LL ++ DL) -> len LL = nl -> len DL = nd ->
    ~ valid_code LL \/ ~ valid_code DL ->
    block_fault pos out (lsb_bits 2 2 ++ h ++ bl ++ b) out
| Dynamic_cut nl nd nc CL h bl LL DL ts bs b r :
    dynamic_start nl nd nc CL h -> valid_code CL ->
    lengths_bits CL [] bl (LL ++ DL) -> len LL = nl -> len DL = nd ->
    valid_code LL -> valid_code DL ->
    tokens_so_far LL DL ts bs -> expands out ts r -> token_cut LL DL b ->
    block_fault pos out (lsb_bits 2 2 ++ h ++ bl ++ bs ++ b) r.

(** Faults of another kind: every bit field is complete and every code is valid, but
    what is sent is not defined. *)
Inductive block_senseless (out : bytes) : list bool -> Prop :=
| Fixed_senseless ts bs b r :
    tokens_so_far fixed_lengths fixed_distances ts bs -> expands out ts r ->
    token_senseless fixed_lengths fixed_distances r b ->
    block_senseless out (lsb_bits 2 1 ++ bs ++ b)
| Lengths_senseless nl nd nc CL h bl l b :
    dynamic_start nl nd nc CL h -> valid_code CL ->
    lengths_bits CL [] bl l -> len l < nl + nd -> meaningless CL b ->
    block_senseless out (lsb_bits 2 2 ++ h ++ bl ++ b)
| Dynamic_senseless nl nd nc CL h bl LL DL ts bs b r :
    dynamic_start nl nd nc CL h -> valid_code CL ->
    lengths_bits CL [] bl (LL ++ DL) -> len LL = nl -> len DL = nd ->
    valid_code LL -> valid_code DL ->
    tokens_so_far LL DL ts bs -> expands out ts r -> token_senseless LL DL r b ->
    block_senseless out (lsb_bits 2 2 ++ h ++ bl ++ bs ++ b).

(** ** Streams: correct blocks, then one with a fault (or no further block) *)
Inductive stream_fault : Z -> bytes -> list bool -> bytes -> Prop :=
| No_block pos out : stream_fault pos out [] out
| Fault_here pos out (final : bool) b r :
    block_fault (pos + 1) out b r -> stream_fault pos out (final :: b) r
| Fault_later pos out b out1 bs r :
    block_bits (pos + 1) out b out1 -> stream_fault (pos + 1 + len b) out1 bs r ->
    stream_fault pos out (false :: b ++ bs) r.
Inductive stream_senseless : Z -> bytes -> list bool -> Prop :=
| Senseless_here pos out (final : bool) b :
    block_senseless out b -> stream_senseless pos out (final :: b)
| Senseless_later pos out b out1 bs :
    block_bits (pos + 1) out b out1 -> stream_senseless (pos + 1 + len b) out1 bs ->
    stream_senseless pos out (false :: b ++ bs).

(** [faulty z]: the bytes [z] are not a stream, for a reason that must be noticed;
    [senseless z]: they say something RFC 1951 gives no meaning to. *)
Definition faulty (z : bytes) : Prop := exists r, stream_fault 0 [] (bits_of z) r.
Definition senseless (z : bytes) : Prop := stream_senseless 0 [] (bits_of z).
