(** A variant of the decompressor of Tinfl.v with one more check, used to say in PropSafe.v
    what makes the original leave its buffers. Not the code of /repo: src/miniz/miniz.cpp
    looks length symbols up in s_length_base (690) without the test marked here; all other
    lines are those of Tinfl.v. *)
From Coq Require Import ZArith List Bool.
From Verif Require Import Base Arr Tinfl.
Import ListNotations.
Open Scope Z_scope.
Local Open Scope tinfl_scope.

(** src/miniz/miniz.cpp 686-695, after "if (counter > 285) TINFL_CR_RETURN_FOREVER(.., FAILED)":
    RFC 1951 3.2.6: "length codes 286-287 will never actually occur in the compressed data". *)
Definition do_match_checked (f : nat) (h1 : huff) (sym : Z) : T unit :=
  if sym >? 285 then tfail else do_match f h1 sym.
(** 636-751, as Tinfl.codes *)
Fixpoint codes_checked (turns f : nat) (h0 h1 : huff) : T unit :=
  match turns with
  | O => tlift (Undef OutOfFuel)
  | S turns' =>
      let after sym :=
        if Z.land sym 511 =? 256 then tret tt
        else do_match_checked f h1 (Z.land sym 511) ;;; codes_checked turns' f h0 h1 in
      fun s =>
      if (len (ti_in s) <? 4) || (TINFL_LZ_DICT_SIZE - ti_cur s <? 2) then
        (c <- huff_decode f h0 ;;
         if c >=? 256 then after c
         else put_byte f (u8 c) ;;; codes_checked turns' f h0 h1) s
      else
        (nb <- num_bits ;;
         (if nb <? 30 then take_word else tret tt) ;;;
         c <- fast_entry h0 ;;
         if negb (Z.land c 256 =? 0) then after c
         else
           c2 <- fast_entry h0 ;;
           store (u8 c) ;;;
           if negb (Z.land c2 256 =? 0) then after c2
           else store (u8 c2) ;;; codes_checked turns' f h0 h1) s
  end.
(** 575-579, as Tinfl.fixed_block *)
Definition fixed_block_checked (turns f : nat) : T unit :=
  h1 <- build_table (repeat 5 32) ;;
  h0 <- build_table static_sizes ;;
  codes_checked turns f h0 h1.
(** 580-631, as Tinfl.dynamic_block *)
Definition dynamic_block_checked (turns f : nat) : T unit :=
  a <- get_bits f 5 ;;
  b <- get_bits f 5 ;;
  c <- get_bits f 4 ;;
  let n0 := a + 257 in
  let n1 := b + 1 in
  cl <- read_code_sizes f (ztake (c + 4) s_length_dezigzag) (repeat 0 19) ;;
  h2 <- build_table cl ;;
  l <- read_lengths 320 f h2 (n0 + n1) [] ;;
  if negb (n0 + n1 =? len l) then tfail
  else
    h1 <- build_table (zdrop n0 l) ;;
    h0 <- build_table (ztake n0 l) ;;
    codes_checked turns f h0 h1.
(** 537-751, as Tinfl.blocks *)
Fixpoint blocks_checked (n turns f : nat) : T unit :=
  match n with
  | O => tlift (Undef OutOfFuel)
  | S n' =>
      x <- get_bits f 3 ;;
      let type := Z.shiftr x 1 in
      (if type =? 0 then stored_block turns f
       else if type =? 3 then tfail
       else if type =? 1 then fixed_block_checked turns f
       else dynamic_block_checked turns f) ;;;
      if Z.land x 1 =? 0 then blocks_checked n' turns f else tret tt
  end.
(** src/zip.cpp 91-161, as Tinfl.npy_inflate_upto *)
Definition npy_inflate_checked (fuel : nat) (z : bytes) : outcome bytes :=
  inflate_chunks fuel fuel
    (mk_inflate (blocks_checked fuel fuel fuel) 0 0 arr_empty 0 0 T_NEEDS_MORE_INPUT) MZ_OK z [].
