(** Property C62: memory safety of decompression. *)
From Coq Require Import String ZArith List Bool Lia.
From Verif Require Import Base Stream BaseFacts Dtype Values Spec ZipSpec Npz NpzFacts ArchiveFacts PropNpz ForeignZip
  Arr DeflateSpec DeflateFaults Tinfl PropDeflate PropOthers Checked.
From Verif Require InflSafe InflEndless InflTop PropFault.
Import ListNotations.
Open Scope Z_scope.

(** *** C62 *)
(** Checked.v is the decompressor with one more test: the two length symbols the standard
    rules out (286, 287) fail. With it no bytes at all, valid or hostile, make any access
    outside the window, the tables or the input, a shift by 64 or more, or a bit count that
    wraps round, however long they are. Two defects are left: memory never written may be
    copied into the result, and output may never end. *)
Theorem C62_checked_is_memory_safe : forall fuel z u, bytes_ok z ->
  npy_inflate_checked fuel z = Undef u -> u = UninitRead \/ u = OutOfFuel.
Proof. exact InflSafe.checked_safe. Qed.
Print Assumptions C62_checked_is_memory_safe.

(** The test changes nothing else: the code of /repo gives the same result, or the test
    made the difference, and then its result is an exception. So whenever the code of /repo
    leaves its buffers it is because of one of those symbols. *)
Theorem C62_memory_safety : forall fuel z, bytes_ok z ->
  (npy_inflate_upto fuel z = npy_inflate_checked fuel z /\
   forall u, npy_inflate_upto fuel z = Undef u -> u = UninitRead \/ u = OutOfFuel) \/
  npy_inflate_checked fuel z = Throw RuntimeError.
Proof.
  intros fuel z HB. destruct (InflSafe.checked_agrees fuel z HB) as [H|H]; [now right|left].
  split; [exact H|]. intros u E. rewrite H in E. now apply (InflSafe.checked_safe fuel z).
Qed.
Print Assumptions C62_memory_safety.

(** Streams the standard gives a meaning to, or that have a fault a decoder must notice, do
    not have such a symbol: they are safe, and all loops end. *)
Theorem C62_sensible_streams_are_safe : forall z, bytes_ok z -> len z <= 2 ^ 20 -> ~ senseless z ->
  forall u, npy_inflate z <> Undef u.
Proof.
  intros z HB HL HN u E. destruct (PropFault.C60_any_compressed_bytes z HB HL HN) as [(b & _ & E')|[E' _]]; congruence.
Qed.
Print Assumptions C62_sensible_streams_are_safe.

(** Without the test: 219 bytes that fill the window exactly, then send symbol 286. Its
    table entry says length 0, but the copy moves three bytes at least: past the end. *)
Definition fill_window : list bool :=
  codeword fixed_lengths 0 ++ concat (repeat (codeword fixed_lengths 285 ++ codeword fixed_distances 0) 127)
  ++ codeword fixed_lengths 0.
Definition overflow_stream : bytes :=
  pack 219 ([true; true; false] ++ fill_window ++ codeword fixed_lengths 286 ++ codeword fixed_distances 0 ++ repeat false 60).
Theorem C62_out_of_bounds : bytes_ok overflow_stream /\ len overflow_stream = 219 /\
  npy_inflate overflow_stream = Undef OutOfBounds.
Proof. split; [apply is_byteb_ok; vm_compute; reflexivity|]. split; vm_compute; reflexivity. Qed.
Print Assumptions C62_out_of_bounds.
Example C62_checked_case : npy_inflate_checked (inflate_fuel overflow_stream) overflow_stream = Throw RuntimeError.
Proof. vm_compute. reflexivity. Qed.

(** A distance to before the start of the data is not refused either: memory that was
    never written is copied into the result. *)
Definition too_far_stream : bytes := pack 5 ([true; true; false] ++ codeword fixed_lengths 257 ++ codeword fixed_distances 0
  ++ codeword fixed_lengths 256 ++ repeat false 17).
Theorem C62_uninitialised_memory : bytes_ok too_far_stream /\ npy_inflate too_far_stream = Undef UninitRead.
Proof. split; [apply is_byteb_ok; vm_compute; reflexivity|vm_compute; reflexivity]. Qed.
Print Assumptions C62_uninitialised_memory.

(** And 16 bytes on which decompression never ends, whatever bound is put on its loops: a
    block whose code has no codeword at all yields zeros for ever, without using up input. *)
Theorem C62_endless_output : exists z, bytes_ok z /\ len z = 16 /\ forall fuel, npy_inflate_upto fuel z = Undef OutOfFuel.
Proof.
  exists InflEndless.no_codes. split; [apply is_byteb_ok; vm_compute; reflexivity|]. split; [reflexivity|].
  exact InflEndless.no_codes_never_ends.
Qed.
Print Assumptions C62_endless_output.

(** In an archive: reading or peeking at a member that holds such bytes has the same
    undefined result, before any checksum is looked at. *)
Theorem C62_hostile_member : forall v c a ms r r' n m g u,
  c_inflate c = npy_inflate -> host_big v = false -> zip_file a ms -> opened a r -> reader_after v c r r' ->
  member_named ms n = Some m -> z_method m = 8 -> len (z_data m) <= mem v -> npy_inflate (z_data m) = Undef u ->
  exists r'', r_peek v c r' n g = (Undef u, r'', g) /\ forall d, r_read v c d r' n g = (Undef u, r'', g).
Proof.
  intros v c a ms r r' n m g u HI _ HZ Hop Haf EM H8 HM HU.
  destruct (opened_zip a ms r (proj1 HZ) Hop) as [HS HK].
  destruct (after_serves v c a ms r r' HZ HS Haf) as [HS' _].
  pose proof (find_member ms n) as HFd. rewrite EM in HFd. destruct HFd as [HFd HIn].
  destruct (read_zip v c a ms m r' n HZ HS') as (r'' & _ & _ & HR); [destruct HS' as (-> & _); exact HFd|exact HIn|].
  exists r''. destruct (len (z_data m) >? mem v) eqn:EM2; [lia|].
  rewrite H8, HI in HR. change (8 =? DEFLATED) with true in HR. cbv iota in HR. rewrite HU in HR.
  unfold r_peek, r_read. rewrite HR. auto.
Qed.
Print Assumptions C62_hostile_member.

(** An archive with such a member. *)
Definition hostile_member : zfile :=
  mk_zfile (str "dir/b") 8 0 too_far_stream 97 0
    20 2 0x53C68A5B None 0x31E 20 2 0x53C68A5B None 0 0 0.
Definition hostile_zip : bytes :=
  local_record hostile_member ++ flat_map central_record [hostile_member] ++ end_record 0 0 1 1 51 40.
Example C62_case : zip_file hostile_zip [hostile_member] /\ member_named [hostile_member] (str "dir/b") = Some hostile_member /\
  z_method hostile_member = 8 /\ npy_inflate (z_data hostile_member) = Undef UninitRead /\
  exists r, opened hostile_zip r.
Proof.
  split; [split; [split; [reflexivity|split]|]|].
  - repeat constructor; vm_compute; intuition congruence.
  - eexists (local_record hostile_member), [], 0, 0, 1, 51.
    split; [vm_compute; reflexivity|]. repeat split; vm_compute; congruence.
  - repeat constructor. eexists [], _. split; [|vm_compute; reflexivity]. reflexivity.
  - split; [vm_compute; reflexivity|]. split; [reflexivity|]. split; [vm_compute; reflexivity|].
    destruct (new_string_reader hostile_zip) as [r| | |] eqn:E; try (vm_compute in E; discriminate).
    exists r. left; exact E.
Qed.
