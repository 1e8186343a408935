(** Fidelity tests (not proofs): the repository's golden files, produced by numpy,
    are run through the model.  Each NPY file must load with the expected type and,
    saved again, give back the identical bytes; the archive must list and read its
    entries. *)
From Coq Require Import String ZArith List Bool Lia.
From Verif Require Import Base Stream Dtype Values Header Tensor Npy Crc Npz AssetData.
Import ListNotations.
Open Scope Z_scope.

Definition le_debug : env := mk_env false true 1000000.
Definition le_release : env := mk_env false false 1000000.
Definition be_release : env := mk_env true false 1000000.
Definition g0 : globals := (zrepeat 0 BUFFER_SIZE, DTYPE_MAP).

(** Load as [d], save with endianness [e], compare. *)
Definition reproduces (v : env) (d : dtype) (e : endian) (b : bytes) : bool :=
  match load v d (open_str b) g0 with
  | (Ok t, s, _) =>
      match save v t e with
      | Ok b' => beq b b' && match rest s with [] => true | _ => false end
      | _ => false
      end
  | _ => false
  end.

Definition all_assets : list (dtype * endian * bytes) :=
  [ (BOOL, LITTLE, asset_bool_npy); (COMPLEX128, LITTLE, asset_complex128_npy);
    (COMPLEX64, LITTLE, asset_complex64_npy); (FLOAT32, LITTLE, asset_float32_npy);
    (FLOAT64, LITTLE, asset_float64_npy); (INT16, LITTLE, asset_int16_npy);
    (INT32, LITTLE, asset_int32_npy); (INT32, LITTLE, asset_int32_array_npy);
    (INT32, BIG, asset_int32_big_npy); (INT32, LITTLE, asset_int32_scalar_npy);
    (INT64, LITTLE, asset_int64_npy); (INT8, LITTLE, asset_int8_npy);
    (UINT16, LITTLE, asset_uint16_npy); (UINT32, LITTLE, asset_uint32_npy);
    (UINT64, LITTLE, asset_uint64_npy); (UINT8, LITTLE, asset_uint8_npy);
    (UINT8, LITTLE, asset_uint8_fortran_npy); (UNICODE_STRING, LITTLE, asset_unicode_npy) ].

Example assets_reproduced_debug :
  forallb (fun '(d, e, b) => reproduces le_debug d e b) all_assets = true.
Proof. vm_compute. reflexivity. Qed.
Example assets_reproduced_release_big_host :
  forallb (fun '(d, e, b) => reproduces be_release d e b) all_assets = true.
Proof. vm_compute. reflexivity. Qed.

Definition no_codec : codec :=
  mk_codec (fun _ => Throw RuntimeError) (fun _ => Throw RuntimeError).

(** test/crc32.cpp: the checksum of a known string, and of the archive entries. *)
Definition keys_of (b : bytes) : option (list bytes) :=
  match new_string_reader b with Ok r => Some (r_keys r) | _ => None end.
Example archive_keys :
  keys_of asset_test_npz = Some (map str ["color.npy"; "depth.npy"; "unicode.npy"]%string).
Proof. vm_compute. reflexivity. Qed.
Example archive_compressed_keys :
  keys_of asset_test_compressed_npz = Some (map str ["color.npy"; "depth.npy"; "unicode.npy"]%string).
Proof. vm_compute. reflexivity. Qed.

Definition reads_ok (b : bytes) (name : string) : bool :=
  match new_string_reader b with
  | Ok r => match r_read_file le_release no_codec r (str name) with
            | (Ok _, _) => true
            | _ => false
            end
  | _ => false
  end.
Example archive_reads :
  forallb (reads_ok asset_test_npz) ["color"; "depth.npy"; "unicode"]%string = true.
Proof. vm_compute. reflexivity. Qed.

(** test/crc32.cpp 20-21 *)
Example crc_float32 : npy_crc32 asset_float32_npy = 928602993.
Proof. vm_compute. reflexivity. Qed.

(** test/npz_write.cpp: reading the three entries and writing them again gives the
    identical archive. *)
Definition rewrite (v : env) (c : codec) (method : Z) (b : bytes)
    (items : list (string * dtype)) : outcome bytes :=
  let* r := new_string_reader b in
  let* w := fold_left
    (fun ow '(n, d) =>
       let* w := ow in
       match r_read v c d r (str n) g0 with
       | (Ok t, _, _) => w_write v c w (str n) t
       | _ => Throw RuntimeError
       end) items (Ok (new_writer method LITTLE)) in
  Ok (w_str (w_close w)).
Example archive_rewritten :
  rewrite le_debug no_codec STORED asset_test_npz
    [("color", UINT8); ("depth.npy", FLOAT32); ("unicode", UNICODE_STRING)]%string
  = Ok asset_test_npz.
Proof. vm_compute. reflexivity. Qed.
