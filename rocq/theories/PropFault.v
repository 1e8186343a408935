(** Property C60: any bytes as compressed data. *)
From Coq Require Import String ZArith List Bool Lia.
From Verif Require Import Base Stream BaseFacts Dtype Values Spec ZipSpec ValuesFacts PropValues Header HeaderFacts
  ParseFacts ParserInv ParserRel NpyFacts PropHeader Tensor Npy TensorFacts PropTensor SaveFacts PropNpy PropForeign
  Crc PropCrc Npz NpzFacts ArchiveFacts PropNpz ForeignZip Arr DeflateSpec Tinfl BitFacts InflTop PropDeflate AssetsZip PropOthers
  PropTrunc DeflateFaults.
From Verif Require InflCopy InflFault4 DeflateDecide DeflateUnique.
Import ListNotations.
Open Scope Z_scope.

(** *** C60 *)
(** DeflateFaults.v lists what can be wrong with a DEFLATE stream in two groups. The list
    is complete: any bytes at all start with a whole stream, or have a fault of the first
    group ([faulty]: cut, reserved block type, lengths of a stored block that do not agree,
    invalid codes, bad repeat counts) or one of the second ([senseless]: symbols or bits
    with no meaning, a distance to before the start of the data). *)
Theorem C60_every_string_is_classified : forall z, bytes_ok z ->
  (exists b, deflate_prefix z b) \/ faulty z \/ senseless z.
Proof. exact DeflateDecide.every_stream. Qed.
Print Assumptions C60_every_string_is_classified.

(** The three classes exclude each other, and the stream at the start of a byte string
    has one decoding; so "what the bytes say" is well defined. *)
Theorem C60_exactly_one_class : forall z, bytes_ok z ->
  ((exists b, deflate_prefix z b /\ forall b', deflate_prefix z b' -> b' = b) /\ ~ faulty z /\ ~ senseless z) \/
  ((forall b, ~ deflate_prefix z b) /\ faulty z /\ ~ senseless z) \/
  ((forall b, ~ deflate_prefix z b) /\ ~ faulty z /\ senseless z).
Proof.
  intros z Hz. destruct (DeflateDecide.every_stream z Hz) as [(b & HB)|[HF|HS]].
  - left. split; [exists b; split; [exact HB|]; intros b' HB'; now apply (DeflateUnique.one_meaning z)|].
    split; [now apply (DeflateUnique.not_faulty z b)|now apply (DeflateUnique.not_senseless z b)].
  - right; left. split; [intros b HB; now apply (DeflateUnique.not_faulty z b HB)|]. split; [exact HF|now apply DeflateUnique.not_both].
  - right; right. split; [intros b HB; now apply (DeflateUnique.not_senseless z b HB)|].
    split; [intros HF; now apply (DeflateUnique.not_both z HF)|exact HS].
Qed.
Print Assumptions C60_exactly_one_class.

(** Every fault of the first group, after any number of correct blocks and anywhere in
    the block, is found: the call throws. *)
Theorem C60_faulty_streams_are_refused : forall z, bytes_ok z -> len z <= 2 ^ 20 -> faulty z ->
  npy_inflate z = Throw RuntimeError.
Proof. intros z Hz HL HF. now apply InflFault4.npy_inflate_faulty. Qed.
Print Assumptions C60_faulty_streams_are_refused.

(** So, unless the bytes have a fault of the second group, the call either returns the
    bytes they are a stream of, or throws; and it only throws for a fault, or for contents of
    the sizes [may_be_refused] names. *)
Theorem C60_any_compressed_bytes : forall z, bytes_ok z -> len z <= 2 ^ 20 -> ~ senseless z ->
  (exists b, deflate_prefix z b /\ npy_inflate z = Ok b) \/
  (npy_inflate z = Throw RuntimeError /\ (faulty z \/ exists b, deflate_prefix z b /\ may_be_refused z b)).
Proof.
  intros z Hz HL HN. destruct (DeflateDecide.every_stream z Hz) as [(b & HB)|[HF|HS]]; [| |contradiction].
  - pose proof HB as (_ & bits & more & E & HS).
    destruct (npy_inflate_ok z b bits more Hz E HS) as [HI|(HI & H2 & H3)]; [right; unfold CHUNK; lia| |]; [left; exists b; auto|].
    right. split; [exact HI|]. right. exists b. split; [exact HB|]. split; [exact H2|].
    destruct H3 as [(_ & n & Hn1 & Hn2 & Hn3)|H3]; [left|right; exact H3]. change (2 ^ 15) with 32768.
    replace (len b) with (len b - n + n / 32768 * 32768) by (pose proof (Z.div_mod n 32768 ltac:(lia)); lia).
    rewrite Z_mod_plus_full, Z.mod_small by lia. lia.
  - right. split; [|now left]. now apply InflFault4.npy_inflate_faulty.
Qed.
Print Assumptions C60_any_compressed_bytes.

(** What is returned is then never anything but what the standard says. *)
Theorem C60_accepted_bytes_are_right : forall z b, bytes_ok z -> len z <= 2 ^ 20 -> ~ senseless z ->
  npy_inflate z = Ok b -> deflate_prefix z b.
Proof.
  intros z b Hz HL HN E. destruct (C60_any_compressed_bytes z Hz HL HN) as [(b' & HB & E')|[E' _]]; rewrite E in E'; [|discriminate].
  injection E' as ->. exact HB.
Qed.
Print Assumptions C60_accepted_bytes_are_right.

(** In an archive: a member whose compressed bytes have such a fault cannot be read or
    peeked at, whatever its checksum says; the reader stays usable. *)
Theorem C60_faulty_member : forall v c a ms r r' n m g,
  c_inflate c = npy_inflate -> host_big v = false -> zip_file a ms -> opened a r -> reader_after v c r r' ->
  member_named ms n = Some m -> z_method m = 8 -> bytes_ok (z_data m) -> faulty (z_data m) ->
  len (z_data m) <= 2 ^ 20 -> len (z_data m) <= mem v ->
  exists r'', reader_after v c r r'' /\ r_peek v c r' n g = (Throw RuntimeError, r'', g) /\
    forall d, r_read v c d r' n g = (Throw RuntimeError, r'', g).
Proof.
  intros v c a ms r r' n m g HI _ HZ Hop Haf EM H8 HB HF HL HM.
  destruct (opened_zip a ms r (proj1 HZ) Hop) as [HS HK].
  destruct (after_serves v c a ms r r' HZ HS Haf) as [HS' _].
  pose proof (find_member ms n) as HFd. rewrite EM in HFd. destruct HFd as [HFd HIn].
  destruct (read_zip v c a ms m r' n HZ HS') as (r'' & _ & _ & HR); [destruct HS' as (-> & _); exact HFd|exact HIn|].
  exists r''. split.
  { replace r'' with (snd (fst (r_peek v c r' n g))) by (rewrite r_peek_reader, HR; reflexivity). now constructor. }
  destruct (len (z_data m) >? mem v) eqn:EM2; [lia|].
  rewrite H8, HI in HR. change (8 =? DEFLATED) with true in HR. cbv iota in HR.
  rewrite (C60_faulty_streams_are_refused _ HB HL HF) in HR.
  unfold r_peek, r_read. rewrite HR. auto.
Qed.
Print Assumptions C60_faulty_member.

(** The groups are not empty, and each kind of check is exercised: streams of one block
    (type 3; stored lengths 2 and 2; three of five announced bytes; a length code of
    nineteen one-bit words; a repetition before any length; 276 lengths where 258 are
    announced), and the same after a good block. *)
Definition one_bit_words : list Z := repeat 1 19.
Definition repeat_or_zero : list Z := [1;0;0;0;0;0;0;0;0;0;0;0;0;0;0;0;1;0;0].
Definition zeros_or_one : list Z := [0;1;0;0;0;0;0;0;0;0;0;0;0;0;0;0;0;0;1].
Lemma case_start nl nd nc CL h : 257 <= nl <= 288 -> 1 <= nd <= 32 -> 4 <= nc <= 19 -> len CL = 19 ->
  forallb (fun x => (0 <=? x) && (x <=? 7)) CL = true ->
  forallb (fun s => code_len CL s =? 0) (zdrop nc length_order) = true ->
  h = lsb_bits 5 (nl - 257) ++ lsb_bits 5 (nd - 1) ++ lsb_bits 4 (nc - 4)
         ++ flat_map (fun s => lsb_bits 3 (code_len CL s)) (ztake nc length_order) ->
  dynamic_start nl nd nc CL h.
Proof.
  intros H1 H2 H3 H4 H5 H6 H7. repeat split; try assumption; try apply H1; try apply H2; try apply H3.
  - apply Forall_forall. intros x Hx. rewrite forallb_forall in H5. specialize (H5 x Hx). cbv beta in H5. lia.
  - intros i Hi s Es. rewrite forallb_forall in H6. apply Z.eqb_eq, H6.
    rewrite <- (ztake_zdrop _ nc length_order) in Es.
    assert (len (ztake nc length_order) = nc) as EL by (rewrite len_ztake; change (len length_order) with 19; lia).
    rewrite InflCopy.znth_app2 in Es by lia. unfold znth in Es.
    destruct (_ <? 0) in Es; [discriminate|]. apply nth_error_In in Es. exact Es.
Qed.
Example C60_faults :
  faulty [7] /\ faulty [1; 2; 0; 2; 0; 65; 66] /\ faulty [1; 5; 0; 250; 255; 65; 66; 67] /\
  faulty [5; 224; 147; 36; 73; 146; 36; 73; 146; 0] /\ faulty [5; 0; 2; 36] /\
  faulty [5; 192; 129; 0; 0; 0; 0; 0; 144; 255; 127] /\
  faulty [0; 1; 0; 254; 255; 65; 7].
Proof.
  split; [|split; [|split; [|split; [|split; [|split]]]]].
  - exists []. apply (Fault_here 0 [] true _ []). exact (Type_reserved 1 [] [false; false; false; false; false]).
  - exists []. apply (Fault_here 0 [] true _ []).
    apply (Stored_lengths_differ 1 [] (repeat false 5) 2 2 (bits_of [65; 66])); vm_compute; intuition congruence.
  - exists [65; 66; 67]. apply (Fault_here 0 [] true _ [65; 66; 67]).
    apply (Stored_data_cut 1 [] (repeat false 5) 5 [65; 66; 67]); try (vm_compute; intuition congruence).
    repeat constructor; lia.
  - exists []. apply (Fault_here 0 [] true _ []).
    apply (Dynamic_code_length_code_invalid 1 [] 257 1 19 one_bit_words _ (repeat false 6)
      (case_start 257 1 19 one_bit_words _ ltac:(lia) ltac:(lia) ltac:(lia) eq_refl eq_refl eq_refl eq_refl)).
    intros [_ [H|H]]; vm_compute in H; congruence.
  - exists []. apply (Fault_here 0 [] true _ []).
    apply (Dynamic_lengths_fault 1 [] 257 1 4 repeat_or_zero _ [] [] (codeword repeat_or_zero 16 ++ [false; false])
      (case_start 257 1 4 repeat_or_zero _ ltac:(lia) ltac:(lia) ltac:(lia) eq_refl eq_refl eq_refl eq_refl)).
    + split; [repeat constructor; lia|left; vm_compute; reflexivity].
    + constructor.
    + vm_compute; reflexivity.
    + apply Nothing_to_repeat; [reflexivity|]. vm_compute. intuition congruence.
  - exists []. apply (Fault_here 0 [] true _ []).
    apply (Dynamic_lengths_fault 1 [] 257 1 18 zeros_or_one _ (codeword zeros_or_one 18 ++ lsb_bits 7 127 ++ []) (zrepeat 0 138)
      (codeword zeros_or_one 18 ++ lsb_bits 7 127 ++ [false])
      (case_start 257 1 18 zeros_or_one _ ltac:(lia) ltac:(lia) ltac:(lia) eq_refl eq_refl eq_refl eq_refl)).
    + split; [repeat constructor; lia|left; vm_compute; reflexivity].
    + apply Lengths_many_zeros; [vm_compute; intuition congruence|lia|constructor].
    + vm_compute; reflexivity.
    + apply (Too_many_lengths zeros_or_one 258 _ 18 11 7 127 [false]); [cbn; auto|vm_compute; intuition congruence|lia|vm_compute; reflexivity].
  - exists [65]. apply (Fault_later 0 [] (lsb_bits 2 0 ++ repeat false 5 ++ lsb_bits 16 1 ++ lsb_bits 16 65534 ++ bits_of [65]) [65] (bits_of [7]) [65]).
    + apply (Stored_block 1 [] (repeat false 5) [65]); try (vm_compute; intuition congruence). repeat constructor; lia.
    + apply (Fault_here _ _ true _ [65]). exact (Type_reserved _ [65] [false; false; false; false; false]).
Qed.
Definition good_then_bad : bytes := [0; 1; 0; 254; 255; 65; 7].
Example C60_faults_refused : npy_inflate good_then_bad = Throw RuntimeError.
Proof. apply C60_faulty_streams_are_refused; [repeat constructor; lia|vm_compute; congruence|apply C60_faults]. Qed.

(** An archive with such a member; its checksum is that of the data before the damage. *)
Definition bad_member : zfile :=
  mk_zfile (str "dir/b") 8 (crc32_standard case_file) good_then_bad 97 0
    20 2 0x53C68A5B None 0x31E 20 2 0x53C68A5B None 0 0 0.
Definition bad_zip : bytes :=
  local_record bad_member ++ flat_map central_record [bad_member] ++ end_record 0 0 1 1 51 42.
Example C60_case : zip_file bad_zip [bad_member] /\ member_named [bad_member] (str "dir/b") = Some bad_member /\
  z_method bad_member = 8 /\ bytes_ok (z_data bad_member) /\ faulty (z_data bad_member) /\
  exists r, opened bad_zip r /\ fst (fst (r_read case_env case_codec UNICODE_STRING r (str "dir/b") (zrepeat 0 65536, DTYPE_MAP))) = Throw RuntimeError.
Proof.
  split; [split; [split; [reflexivity|split]|]|].
  - repeat constructor; vm_compute; intuition congruence.
  - eexists (local_record bad_member), [], 0, 0, 1, 51.
    split; [vm_compute; reflexivity|]. repeat split; vm_compute; congruence.
  - repeat constructor. eexists [], _. split; [|vm_compute; reflexivity]. reflexivity.
  - split; [vm_compute; reflexivity|]. split; [reflexivity|]. split; [repeat constructor; lia|]. split; [apply C60_faults|].
    destruct (new_string_reader bad_zip) as [r| | |] eqn:E; try (vm_compute in E; discriminate).
    exists r. split; [left; exact E|]. vm_compute in E. injection E as <-. vm_compute. reflexivity.
Qed.

(** Faults of the second group are not checked for, so the theorems must exclude them: a
    match that reaches to before the start of the data copies memory that was never
    written, and so does one with distance symbol 30; length symbol 286 is taken for
    three bytes, and the call succeeds. *)
Theorem C60_senseless_streams :
  (senseless [3; 2; 0] /\ npy_inflate [3; 2; 0] = Undef UninitRead) /\
  (senseless [115; 4; 62; 0] /\ npy_inflate [115; 4; 62; 0] = Undef UninitRead) /\
  (senseless [115; 28; 3; 0] /\ npy_inflate [115; 28; 3; 0] = Ok [65; 65; 65; 65]).
Proof.
  split; [|split]; (split; [|vm_compute; reflexivity]); apply (Senseless_here 0 [] true).
  - apply (Fixed_senseless [] [] [] (codeword fixed_lengths 257 ++ codeword fixed_distances 0 ++ codeword fixed_lengths 256 ++ repeat false 2) []); [constructor|constructor|].
    apply (Distance_too_far fixed_lengths fixed_distances [] 3 1 (codeword fixed_lengths 257 ++ codeword fixed_distances 0)
      (codeword fixed_lengths 256 ++ repeat false 2)); [|vm_compute; reflexivity].
    apply (Copy_bits fixed_lengths fixed_distances 0 3 0 0 0 1 0 0); vm_compute; intuition congruence.
  - apply (Fixed_senseless [] [Lit 65] (codeword fixed_lengths 65 ++ []) (codeword fixed_lengths 257 ++ [] ++ codeword fixed_distances 30 ++ codeword fixed_lengths 256 ++ repeat false 2) [65]).
    + constructor; [|constructor]. constructor; vm_compute; intuition congruence.
    + repeat constructor.
    + apply (Distance_symbol_unknown fixed_lengths fixed_distances [65] 0 3 0 [] 30); vm_compute; intuition congruence.
  - apply (Fixed_senseless [] [Lit 65] (codeword fixed_lengths 65 ++ []) (codeword fixed_lengths 286 ++ codeword fixed_distances 0 ++ codeword fixed_lengths 256 ++ repeat false 1) [65]).
    + constructor; [|constructor]. constructor; vm_compute; intuition congruence.
    + repeat constructor.
    + apply (Length_symbol_unknown fixed_lengths fixed_distances [65] 286); vm_compute; intuition congruence.
Qed.
Print Assumptions C60_senseless_streams.
