(** CRC-32: src/miniz/miniz.cpp 67-75 and src/zip.cpp 21-26. *)
From Coq Require Import String ZArith List Bool Lia.
From Verif Require Import Base.
Import ListNotations.
Open Scope Z_scope.

(** miniz.cpp 69-70: s_crc32 *)
Definition s_crc32 : list Z :=
  [ 0; 0x1db71064; 0x3b6e20c8; 0x26d930ac; 0x76dc4190; 0x6b6b51f4; 0x4db26158;
    0x5005713c; 0xedb88320; 0xf00f9344; 0xd6d6a3e8; 0xcb61b38c; 0x9b64c2b0;
    0x86d3d2d4; 0xa00ae278; 0xbdbdf21c ].

(** miniz.cpp 73, one of the two statements: x is the low nibble of crc xor the
    data nibble. *)
Definition crc_nibble (crc n : Z) : Z :=
  Z.lxor (Z.shiftr crc 4) (nth (Z.to_nat (Z.lxor (Z.land crc 15) n)) s_crc32 0).
(** src/miniz/miniz.cpp 72-73: one turn of the loop *)
Definition crc_byte (crc b : Z) : Z :=
  crc_nibble (crc_nibble crc (Z.land b 15)) (Z.shiftr b 4).

(** miniz.cpp 67-75: mz_crc32(crc, ptr, buf_len), ptr non-null. ~x on 32 bits is
    x xor 0xFFFFFFFF. *)
Definition mz_crc32 (crc : Z) (l : bytes) : Z :=
  Z.lxor (fold_left crc_byte l (Z.lxor (u32 crc) 0xffffffff)) 0xffffffff.

(** zip.cpp 21-26: npy_crc32; the length is cut to 32 bits. *)
Definition npy_crc32 (l : bytes) : Z := mz_crc32 0 (ztake (u32 (len l)) l).
