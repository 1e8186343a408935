(** Property C58: compressed data that stops short. *)
From Coq Require Import String ZArith List Bool Lia.
From Verif Require Import Base Stream BaseFacts Dtype Values Spec ZipSpec ValuesFacts PropValues Header HeaderFacts
  ParseFacts ParserInv ParserRel NpyFacts PropHeader Tensor Npy TensorFacts PropTensor SaveFacts PropNpy PropForeign
  Crc PropCrc Npz NpzFacts ArchiveFacts PropNpz ForeignZip Arr DeflateSpec Tinfl BitFacts InflTop PropDeflate AssetsZip PropOthers.
Import ListNotations.
Open Scope Z_scope.

(** *** C58 *)
(** [part] is what is left of a compressed stream after its end was lost. *)
Definition cut_short (part whole : bytes) : Prop := exists lost, lost <> [] /\ whole = part ++ lost.
(** Whatever standard stream it was, and wherever it was cut - even before its first
    byte - decompressing throws; nothing is returned and no memory outside the buffers
    is touched. (The fuel is the model's step limit, [npy_inflate] is the function with
    a limit fit for complete streams. Any limit above the bound gives the same answer.) *)
Theorem C58_truncated_compressed_data : forall part whole b fuel,
  deflates_to whole b -> cut_short part whole -> len b < 2 ^ 20 \/ len part <= 2 ^ 20 ->
  8 * len whole + 16 <= Z.of_nat fuel ->
  npy_inflate_upto fuel part = Throw RuntimeError.
Proof.
  intros part whole b fuel (Hz & bits & pad & E & Hp & HS) (lost & HN & ->) HC HF.
  apply (npy_inflate_short part lost b bits pad Hz E HS); auto.
  destruct lost as [|x l]; [congruence|]. rewrite len_cons. pose proof (len_nonneg _ l). lia.
Qed.
Print Assumptions C58_truncated_compressed_data.

(** In an archive: the member's record is intact, and says how many bytes there are, but
    they are only the beginning of the stream (as when the writing program stopped and
    another tool repaired the directory). Reading or peeking at the member throws, whatever its
    checksum; the reader stays usable, as after any other failed read. *)
Theorem C58_truncated_member : forall v c a ms r r' n m whole b fuel g,
  8 * len whole + 16 <= Z.of_nat fuel -> c_inflate c = npy_inflate_upto fuel -> host_big v = false ->
  zip_file a ms -> opened a r -> reader_after v c r r' ->
  member_named ms n = Some m -> z_method m = 8 -> deflates_to whole b -> cut_short (z_data m) whole ->
  len b < 2 ^ 20 \/ len (z_data m) <= 2 ^ 20 -> len (z_data m) <= mem v ->
  exists r'', reader_after v c r r'' /\ r_peek v c r' n g = (Throw RuntimeError, r'', g) /\
    forall d, r_read v c d r' n g = (Throw RuntimeError, r'', g).
Proof.
  intros v c a ms r r' n m whole b fuel g HF HI _ HZ Hop Haf EM H8 HD HC HL HM.
  destruct (opened_zip a ms r (proj1 HZ) Hop) as [HS HK].
  destruct (after_serves v c a ms r r' HZ HS Haf) as [HS' _].
  pose proof (find_member ms n) as HFd. rewrite EM in HFd. destruct HFd as [HFd HIn].
  destruct (read_zip v c a ms m r' n HZ HS') as (r'' & _ & _ & HR); [destruct HS' as (-> & _); exact HFd|exact HIn|].
  exists r''. split.
  { replace r'' with (snd (fst (r_peek v c r' n g))) by (rewrite r_peek_reader, HR; reflexivity). now constructor. }
  destruct (len (z_data m) >? mem v) eqn:EM2; [lia|].
  rewrite H8, HI in HR. change (8 =? DEFLATED) with true in HR. cbv iota in HR.
  rewrite (C58_truncated_compressed_data _ _ _ _ HD HC HL HF) in HR.
  unfold r_peek, r_read. rewrite HR. auto.
Qed.
Print Assumptions C58_truncated_member.

(** The hypotheses are met, and the cut need not be near the end: the archive of C53
    with the compressed member cut after 60 of its 102 bytes. *)
Definition cut_member : zfile :=
  mk_zfile (str "dir/b") 8 (crc32_standard case_file) (ztake 60 ([1; 97; 0; 158; 255] ++ case_file)) 97 0
    20 2 0x53C68A5B None 0x31E 20 2 0x53C68A5B None 0 0 0.
Definition cut_zip : bytes :=
  local_record cut_member ++ flat_map central_record [cut_member] ++ end_record 0 0 1 1 51 95.
Example C58_case : zip_file cut_zip [cut_member] /\ member_named [cut_member] (str "dir/b") = Some cut_member /\
  (exists whole, deflates_to whole case_file /\ cut_short (z_data cut_member) whole /\ len whole = 102 /\ len (z_data cut_member) = 60) /\
  exists r, opened cut_zip r /\
    fst (fst (r_read case_env (mk_codec Ok (npy_inflate_upto 900)) UNICODE_STRING r (str "dir/b") (zrepeat 0 65536, DTYPE_MAP))) = Throw RuntimeError.
Proof.
  split; [split; [split; [reflexivity|split]|]|].
  - repeat constructor; vm_compute; intuition congruence.
  - eexists (local_record cut_member), [], 0, 0, 1, 51.
    split; [vm_compute; reflexivity|]. repeat split; vm_compute; congruence.
  - repeat constructor. eexists [], _. split; [|vm_compute; reflexivity]. reflexivity.
  - split; [vm_compute; reflexivity|]. split.
    + exists ([1; 97; 0; 158; 255] ++ case_file). split; [apply one_stored_block_ok; [apply is_byteb_ok; vm_compute; reflexivity|vm_compute; reflexivity]|].
      split; [|split; vm_compute; reflexivity].
      exists (zdrop 60 ([1; 97; 0; 158; 255] ++ case_file)). split; [vm_compute; discriminate|].
      symmetry. exact (ztake_zdrop _ _ _).
    + destruct (new_string_reader cut_zip) as [r| | |] eqn:E; try (vm_compute in E; discriminate).
      exists r. split; [left; exact E|]. vm_compute in E. injection E as <-. vm_compute. reflexivity.
Qed.
