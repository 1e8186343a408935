(** Property C67: compression depends on the byte order of the host. *)
From Coq Require Import String ZArith List Bool Lia.
From Verif Require Import Base Stream BaseFacts Dtype Values Spec Header Tensor Npy TensorFacts PropTensor
  Crc Npz NpzFacts ArchiveFacts PropNpz Arr DeflateSpec Tinfl Tdefl InflTop PropDeflate DeflTop PropCompress BigHost.
Import ListNotations.
Open Scope Z_scope.

(** *** C67 *)
(** Little-endian hosts: what was compressed is read back (up to the 32 KiB window). *)
Theorem C67_little_endian_hosts : forall v1 v2 dict next buf b,
  host_big v1 = false -> host_big v2 = false -> heap_bytes buf -> bytes_ok b ->
  exists z, npy_deflate_on v1 dict next buf b = Ok z /\ deflates_to z b /\
    (len b <= 2 ^ 15 -> npy_inflate_on v2 z = Ok b).
Proof.
  intros v1 v2 dict next buf b H1 H2 HH HB. rewrite npy_deflate_little by exact H1.
  destruct (npy_deflate_ok v1 dict next buf b HH HB) as (z & E & HD & _).
  destruct (C49_round_trip v1 dict next buf b H1 HH HB) as (z' & E' & HR & _). assert (z' = z) as -> by congruence.
  exists z. split; [exact E|]. split; [exact HD|]. rewrite npy_inflate_little by exact H2. exact HR.
Qed.
Print Assumptions C67_little_endian_hosts.

(** Big-endian hosts. Forty zeros: the compressor succeeds, with six bytes that are not
    a DEFLATE stream of them, and that neither kind of host can read. *)
Theorem C67_big_endian_compressor : forall v, host_big v = true ->
  exists b z, bytes_ok b /\ npy_deflate_on v arr_empty arr_empty arr_empty b = Ok z /\ ~ deflates_to z b /\
    forall v', npy_inflate_on v' z = Throw RuntimeError.
Proof.
  intros [h d m] Hv. cbn [host_big] in Hv. subst h. exists (repeat 0 40), [0; 0; 0; 0; 0; 0].
  split; [apply is_byteb_ok; vm_compute; reflexivity|]. split; [destruct d; vm_compute; reflexivity|].
  assert (npy_inflate [0; 0; 0; 0; 0; 0] = Throw RuntimeError) as HL by (vm_compute; reflexivity).
  split.
  - intros HD. destruct (C50_standard_deflate_streams _ _ HD) as [H _].
    destruct H as [H|[_ [H _]]]; [left; vm_compute; reflexivity|rewrite HL in H; discriminate|].
    vm_compute in H. discriminate.
  - intros [h2 d2 m2]. destruct h2; [vm_compute; reflexivity|]. rewrite npy_inflate_little by reflexivity. exact HL.
Qed.
Print Assumptions C67_big_endian_compressor.
(** A standard stream - the one a little-endian host makes of the same zeros - makes the
    decompressor of a big-endian host copy bytes of its window that were never written. *)
Theorem C67_big_endian_decompressor : exists b z, bytes_ok b /\ deflates_to z b /\
  (forall v, host_big v = false -> npy_inflate_on v z = Ok b) /\
  (forall v, host_big v = true -> npy_inflate_on v z = Undef UninitRead).
Proof.
  set (v0 := mk_env false false 1000). exists (repeat 0 40), [99; 96; 32; 14; 0; 0].
  assert (bytes_ok (repeat 0 40)) as HB by (apply is_byteb_ok; vm_compute; reflexivity). split; [exact HB|].
  destruct (npy_deflate_ok v0 arr_empty arr_empty arr_empty (repeat 0 40)) as (z & E & HD & _);
    [intros i Hi; rewrite arr_get_empty; lia|exact HB|].
  assert (npy_deflate v0 arr_empty arr_empty arr_empty (repeat 0 40) = Ok [99; 96; 32; 14; 0; 0]) as E2 by (vm_compute; reflexivity).
  assert (z = [99; 96; 32; 14; 0; 0]) as -> by congruence. split; [exact HD|]. split.
  - intros v Hv. rewrite npy_inflate_little by exact Hv. vm_compute. reflexivity.
  - intros [h d m] Hv. cbn [host_big] in Hv. subst h. vm_compute. reflexivity.
Qed.
Print Assumptions C67_big_endian_decompressor.
(** Compressing can read past the end of a table; a build with assertions stops before. *)
Theorem C67_big_endian_out_of_bounds : exists b, bytes_ok b /\ len b = 300 /\
  forall v, host_big v = true ->
    npy_deflate_on v arr_empty arr_empty arr_empty b = if dbg v then AssertFail else Undef OutOfBounds.
Proof.
  exists (let x := map (fun i => (i * i + 7) mod 256) (map Z.of_nat (seq 0 150)) in x ++ x).
  split; [apply is_byteb_ok; vm_compute; reflexivity|]. split; [vm_compute; reflexivity|].
  intros [h d m] Hv. cbn [host_big] in Hv. subst h. destruct d; vm_compute; reflexivity.
Qed.
Print Assumptions C67_big_endian_out_of_bounds.


(** In an archive. On a big-endian host, an array of a hundred zeros written compressed:
    a build without assertions reports success, the archive opens and lists the array,
    and no host can read it; a build with assertions stops in the write. *)
Definition host_codec (v : env) : codec :=
  mk_codec (npy_deflate_on v arr_empty arr_empty arr_empty) (npy_inflate_on v).
Theorem C67_big_endian_archives : forall debug host2 debug2,
  let v1 := mk_env true debug (2 ^ 40) in let v2 := mk_env host2 debug2 (2 ^ 40) in
  exists t, make_tensor v1 UINT8 [100] false = Ok t /\ let written := w_write v1 (host_codec v1) (new_writer DEFLATED LITTLE) (str "a") t in
  if debug then written = AssertFail
  else (exists w r, written = Ok w /\ new_string_reader (w_str (w_close w)) = Ok r /\ r_keys r = [str "a.npy"] /\
    fst (fst (r_read v2 (host_codec v2) UINT8 r (str "a") (zrepeat 0 65536, DTYPE_MAP))) = Throw RuntimeError).
Proof.
  intros debug host2 debug2 v1 v2. eexists. split; [vm_compute; reflexivity|]. cbv zeta. destruct debug; [vm_compute; reflexivity|].
  eexists _, _. split; [vm_compute; reflexivity|]. split; [vm_compute; reflexivity|]. split; [vm_compute; reflexivity|].
  destruct host2, debug2; vm_compute; reflexivity.
Qed.
Print Assumptions C67_big_endian_archives.
