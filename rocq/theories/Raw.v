(** header_info objects made by the program: src/npy.cpp 119-125. *)
From Coq Require Import String ZArith List Bool Lia.
From Verif Require Import Base Stream Dtype Values Header Tensor Npy.
Import ListNotations.
Open Scope Z_scope.

(** src/npy.cpp 119-125: header_info(dtype, endianness, fortran_order, shape); max_element_length
    is not assigned. *)
Definition header_by_hand (d : dtype) (e : endian) (fortran : bool) (shape : list Z) : header_info :=
  mk_header (Some d) (Some e) (Some fortran) shape None.
