(** Fidelity tests (not proofs) of the compressor and the decompressor: the
    repository's compressed golden archive. *)
From Coq Require Import String ZArith List Bool Lia.
From Verif Require Import Base Stream Dtype Values Header Tensor Npy Crc Npz AssetData Assets
  Arr Tinfl Tdefl.
Import ListNotations.
Open Scope Z_scope.

Definition miniz_codec (v : env) (dict next buf : arr) : codec :=
  mk_codec (npy_deflate v dict next buf) npy_inflate.
Definition three : list (string * dtype) :=
  [("color", UINT8); ("depth.npy", FLOAT32); ("unicode", UNICODE_STRING)]%string.
(** test/npz_write.cpp 12-34: the compressed archive comes out byte for byte, whatever
    the heap contained *)
Example archive_compressed :
  rewrite le_debug (miniz_codec le_debug arr_empty arr_empty arr_empty) DEFLATED asset_test_npz three
  = Ok asset_test_compressed_npz.
Proof. vm_compute. reflexivity. Qed.
Definition junk : arr :=
  fold_left (fun a i => arr_set a (Z.of_nat i) (Z.of_nat i mod 251)) (seq 0 600) arr_empty.
Example archive_compressed_dirty_heap :
  rewrite le_debug (miniz_codec le_debug junk junk junk) DEFLATED asset_test_npz three
  = Ok asset_test_compressed_npz.
Proof. vm_compute. reflexivity. Qed.
(** test/npz_read.cpp: and it is read back *)
Example archive_decompressed :
  rewrite le_debug (miniz_codec le_debug arr_empty arr_empty arr_empty) STORED asset_test_compressed_npz three
  = Ok asset_test_npz.
Proof. vm_compute. reflexivity. Qed.
