(** Property C50: compressed entries made by any standard compressor. *)
From Coq Require Import String ZArith List Bool Lia.
From Verif Require Import Base Stream BaseFacts Dtype Values Spec ValuesFacts PropValues Header HeaderFacts
  ParseFacts ParserInv ParserRel NpyFacts Tensor Npy TensorFacts PropTensor SaveFacts PropNpy
  Crc PropCrc Npz NpzFacts ArchiveFacts PropNpz Arr DeflateSpec Tinfl BitFacts InflTop.
Import ListNotations.
Open Scope Z_scope.

(** *** C50 *)
(** The decompressor itself. Its buffers are of 2^20 bytes: the decompressed bytes must
    be fewer, or the compressed bytes fit in two such buffers (for the second part, in one). *)
(** Contents it may refuse: longer than the window of 2^15 bytes by at most 8128 bytes over a
    multiple of it, or so long that both it and its compressed form exceed a buffer. *)
Definition may_be_refused (z b : bytes) : Prop :=
  2 ^ 15 < len b /\ (0 < len b mod 2 ^ 15 <= 8128 \/ (2 ^ 20 <= len b /\ 2 ^ 20 < len z)).
Theorem C50_standard_deflate_streams : forall z b, deflates_to z b ->
  (len b < 2 ^ 20 \/ len z <= 2 ^ 21 -> npy_inflate z = Ok b \/ (npy_inflate z = Throw RuntimeError /\ may_be_refused z b)) /\
  (forall rest, bytes_ok rest -> 8 <= len rest -> len b < 2 ^ 20 \/ len (z ++ rest) <= 2 ^ 20 -> npy_inflate (z ++ rest) = Ok b).
Proof.
  intros z b (Hz & bits & pad & E & Hp & HS). split.
  - intros HC. destruct (npy_inflate_ok z b bits pad Hz E HS HC) as [H|(H & H2 & H3)]; auto.
    right. split; [exact H|]. split; [exact H2|]. change (2 ^ 20) with CHUNK. change (2 ^ 15) with 32768.
    destruct H3 as [(_ & n & Hn1 & Hn2 & Hn3)|H3]; [left|now right].
    replace (len b) with (len b - n + n / 32768 * 32768) by (pose proof (Z.div_mod n 32768 ltac:(lia)); lia).
    rewrite Z_mod_plus_full, Z.mod_small by lia. lia.
  - intros rest Hr H8 HC.
    destruct (npy_inflate_ok (z ++ rest) b bits (pad ++ bits_of rest)) as [H|(_ & _ & H)]; auto.
    + apply bytes_ok_app. auto.
    + rewrite bits_of_app, E. apply app_assoc_reverse.
    + change (2 ^ 20) with CHUNK in HC. destruct HC as [HC|HC]; [now left|right; unfold CHUNK in *; lia].
    + exfalso. rewrite len_app, bits_of_len in H. pose proof (len_nonneg _ pad). change (2 ^ 20) with CHUNK in HC. lia.
Qed.
Print Assumptions C50_standard_deflate_streams.

(** Reading one entry of a compressed archive. *)
Lemma deflated_entry v v2 c e items a r r' n t :
  archive v c DEFLATED e items a -> opened a r -> reader_after v2 c r r' -> resolve items n = Some t ->
  exists file cb r'', save v t e = Ok file /\ c_deflate c file = Ok cb /\ bytes_ok file /\
    (len cb <= mem v2 -> r_read_file v2 c r' n =
       (match c_inflate c cb with
        | Ok b => if npy_crc32 b =? npy_crc32 file then Ok b else Throw RuntimeError
        | x => x
        end, r'')).
Proof.
  intros HA Hop Haf HR. destruct (archive_ps _ _ _ _ _ _ HA) as (ps & HL & _ & HO & _).
  destruct (HO r Hop) as [HS _]. destruct (after_serving v2 c DEFLATED _ ps r r' HL HS Haf) as [(E & F & W) _].
  change (stub c DEFLATED) with c in HL.
  pose proof (find_items c DEFLATED _ ps n HL) as HF. rewrite resolve_files, HR in HF. cbn [option_map] in HF.
  destruct (find_entry (directory_map (dir ps)) n) as [en|] eqn:EF; [|discriminate].
  destruct HF as (b & cb & HI & Hb). injection Hb as Hb.
  destruct (laid_in _ _ _ _ _ HL _ _ _ HI) as (pre & post & E1 & E2 & ES & E3 & E4 & E5 & E6 & EO & HCB & HBO).
  destruct (read_at v2 c (directory_map (dir ps)) n en pre ((f_usize en >? ZIP64_LIMIT) || (f_csize en >? ZIP64_LIMIT)) cb
    (post ++ flat_map write_cd_header (dir ps) ++ write_eocd (len ps mod 65536) (len (flat_map write_cd_header (dir ps))) (len (ArchiveFacts.blocks ps))) (r_in r'))
    as (s' & F' & W' & HRd); auto.
  { rewrite W. unfold archive_of. rewrite E1. unfold ArchiveFacts.block. now rewrite <- !app_assoc. }
  exists b, cb, (mk_reader s' (r_entries r') (r_keys r')).
  split; [subst b; apply file_of_save|]. destruct ES as [[ES _]|[_ ES]]; [discriminate|].
  split; [exact ES|]. split; [exact HBO|]. intros HM. unfold r_read_file. rewrite E, HRd.
  destruct (len cb >? mem v2) eqn:EM; [lia|]. rewrite E6, E3. change (DEFLATED =? DEFLATED) with true. cbv iota.
  f_equal.
Qed.
(** Archives whose entries were compressed by anything that conforms to RFC 1951 -
    [c] stands for that program - and are read by libnpy. *)
Definition conforming (c : codec) : Prop := forall b z, bytes_ok b -> c_deflate c b = Ok z -> deflates_to z b.
Theorem C50_any_compressor : forall v1 v2 c e items a r r' n t g,
  conforming c -> c_inflate c = npy_inflate -> host_big v2 = false ->
  archive v1 c DEFLATED e items a -> opened a r -> reader_after v2 c r r' ->
  resolve items n = Some t -> api_tensor t -> loadable v1 e v2 (n, t) -> prior_parses g ->
  exists file z, save v1 t e = Ok file /\ c_deflate c file = Ok z /\
  (len z <= mem v2 -> len file < 2 ^ 20 \/ len z <= 2 ^ 21 -> exists r'' g', reader_after v2 c r r'' /\ prior_parses g' /\
     (r_read v2 c (t_dtype t) r' n g = (Ok t, r'', g') \/
      (r_read v2 c (t_dtype t) r' n g = (Throw RuntimeError, r'', g') /\ may_be_refused z file))).
Proof.
  intros v1 v2 c e items a r r' n t g HC HI _ HA Hop Haf HR Ht (H1 & H2 & H3 & H4 & H5) Hg. cbn [snd] in *.
  destruct (deflated_entry v1 v2 c e items a r r' n t HA Hop Haf HR) as (file & z & r'' & HF & HZ & HB & HRd).
  exists file, z. split; [exact HF|]. split; [exact HZ|]. intros HM HL. specialize (HRd HM).
  pose proof (HC _ _ HB HZ) as HD. destruct (C50_standard_deflate_streams z file HD) as (HT & _). specialize (HT HL).
  destruct (C26_save_load_round_trip v1 v2 t e Ht H1 H2 H3 H4) as (file' & HF' & Hload).
  rewrite HF in HF'. injection HF' as <-.
  destruct (Hload (open_str file) g [] eq_refl Hg ltac:(now rewrite app_nil_r)) as (g' & Hl & Hg').
  rewrite HI in HRd. destruct HT as [HT|(HT & HT2)]; rewrite HT in HRd.
  - rewrite Z.eqb_refl in HRd. assert (r_read v2 c (t_dtype t) r' n g = (Ok t, r'', g')) as HX by (unfold r_read; rewrite HRd, Hl; reflexivity).
    exists r'', g'. split; [|split; [exact Hg'|left; exact HX]].
    replace r'' with (snd (fst (r_read v2 c (t_dtype t) r' n g))) by (now rewrite HX). now constructor.
  - assert (r_read v2 c (t_dtype t) r' n g = (Throw RuntimeError, r'', g)) as HX by (unfold r_read; rewrite HRd; reflexivity).
    exists r'', g. split; [|split; [exact Hg|right; auto]].
    replace r'' with (snd (fst (r_read v2 c (t_dtype t) r' n g))) by (now rewrite HX). now constructor.
Qed.
Print Assumptions C50_any_compressor.

(** A conforming compressor: one stored block. *)
Definition one_stored_block (b : bytes) : outcome bytes :=
  if len b <? 65536 then Ok ([1; len b mod 256; len b / 256; 255 - len b mod 256; 255 - len b / 256] ++ b)
  else Throw RuntimeError.
Lemma lsb_16 v : 0 <= v < 65536 -> lsb_bits 16 v = lsb_bits 8 (v mod 256) ++ lsb_bits 8 (v / 256).
Proof.
  intros H. change 16%nat with (8 + 8)%nat. rewrite lsb_bits_app. change (2 ^ Z.of_nat 8) with 256.
  now rewrite <- (lsb_mod 8 v).
Qed.
Lemma one_stored_block_ok b z : bytes_ok b -> one_stored_block b = Ok z -> deflates_to z b.
Proof.
  unfold one_stored_block. intros Hb. destruct (len b <? 65536) eqn:E; [|discriminate]. intros HE.
  apply (f_equal (fun o => match o with Ok x => x | _ => [] end)) in HE. cbv beta iota in HE. subst z.
  pose proof (len_nonneg _ b) as Hl. pose proof (Z.mod_pos_bound (len b) 256 ltac:(lia)) as Hm.
  pose proof (Z.div_mod (len b) 256 ltac:(lia)) as Hdm.
  assert (0 <= len b / 256 < 256) as Hd by (split; [apply Z.div_pos; lia|apply Z.div_lt_upper_bound; lia]).
  assert (len b < 65536) as Hlt by lia.
  split.
  { apply bytes_ok_app. split; [|exact Hb]. repeat (apply Forall_cons; [unfold is_byte; lia|]). apply Forall_nil. }
  exists (true :: lsb_bits 2 0 ++ repeat false 5 ++ lsb_bits 16 (len b) ++ lsb_bits 16 (65535 - len b) ++ bits_of b), [].
  split; [|split; [cbn; lia|]].
  - rewrite app_nil_r. cbn [app]. rewrite !bits_of_cons. rewrite (lsb_16 (len b)), (lsb_16 (65535 - len b)) by lia.
    replace ((65535 - len b) mod 256) with (255 - len b mod 256).
    2:{ apply Z.mod_unique_pos with (q := 255 - len b / 256); lia. }
    replace ((65535 - len b) / 256) with (255 - len b / 256).
    2:{ apply Z.div_unique_pos with (r := 255 - len b mod 256); lia. }
    change (lsb_bits 8 1) with (true :: lsb_bits 2 0 ++ repeat false 5). rewrite <- !app_assoc. cbn [app]. rewrite <- ?app_assoc. reflexivity.
  - apply Last_block. apply (Stored_block _ []); [reflexivity|cbn; lia|exact Hlt|exact Hb].
Qed.
Definition case_codec : codec := mk_codec one_stored_block npy_inflate.
Example C50_case : conforming case_codec /\ c_inflate case_codec = npy_inflate /\
  exists a r, archive case_env case_codec DEFLATED BIG case_items a /\ opened a r /\
  api_tensor case_tensor /\ loadable case_env BIG case_env (str "a", case_tensor) /\
  resolve case_items (str "a") = Some case_tensor /\ 
  exists r' g', r_read case_env case_codec (t_dtype case_tensor) r (str "a") (zrepeat 0 65536, DTYPE_MAP) = (Ok case_tensor, r', g').
Proof.
  assert (conforming case_codec) as HC by (intros b z; apply one_stored_block_ok).
  split; [exact HC|]. split; [reflexivity|].
  destruct (PropNpz.write_all case_env case_codec (new_writer DEFLATED BIG) case_items) as [w| | |] eqn:E;
    try (vm_compute in E; discriminate).
  assert (archive case_env case_codec DEFLATED BIG case_items (w_str (w_close w))) as HA.
  { split; [now right|]. split; [apply C35_case|]. split.
    { assert (forall p, In p case_items -> snd p = case_tensor) as HS by (intros p [<-|[<-|[<-|[<-|[]]]]]; reflexivity).
      apply Forall_forall. intros p Hp b Hb. left. rewrite (HS p Hp) in Hb. vm_compute in Hb. injection Hb as <-.
      eexists. split; [vm_compute; reflexivity|vm_compute; reflexivity]. }
    split; [vm_compute; discriminate|]. split.
    { vm_compute in E. injection E as <-. vm_compute. reflexivity. }
    exists (new_writer DEFLATED BIG), w. split; [now left|]. auto. }
  destruct (archive_ps _ _ _ _ _ _ HA) as (_ & _ & _ & _ & (r & Hr) & _).
  exists (w_str (w_close w)), r. split; [exact HA|]. split; [now left|]. split; [apply C26_case|].
  split. { destruct C35_case as (_ & HL & _). now apply Forall_inv in HL. } split; [reflexivity|].
  destruct (C50_any_compressor case_env case_env case_codec BIG case_items _ r r (str "a") case_tensor (zrepeat 0 65536, DTYPE_MAP) HC eq_refl eq_refl HA (or_introl Hr))
    as (file & z & HF & HZ & HR).
  - constructor.
  - reflexivity.
  - apply C26_case.
  - destruct C35_case as (_ & HL & _). now apply Forall_inv in HL.
  - apply prior_none.
  - vm_compute in HF. injection HF as <-. vm_compute in HZ. injection HZ as <-.
    destruct HR as (r'' & g' & _ & _ & [HR|[_ HR]]); [vm_compute; discriminate|right; vm_compute; discriminate|exists r'', g'; exact HR|].
    exfalso. destruct HR as [HR _]. apply Z.lt_gt in HR. vm_compute in HR. discriminate.
Qed.
(** 32769 zeros, as a compressor would send them: a standard stream of 211 bytes that
    libnpy refuses. *)
Definition zeros_bits : list bool :=
  true :: lsb_bits 2 1 ++ codeword fixed_lengths 0
  ++ concat (repeat (codeword fixed_lengths 285 ++ lsb_bits 0 0 ++ codeword fixed_distances 0 ++ lsb_bits 0 0) 127)
  ++ codeword fixed_lengths 0 ++ codeword fixed_lengths 0 ++ codeword fixed_lengths 256.
Fixpoint pack (n : nat) (l : list bool) : bytes :=
  match n with O => [] | S m => bval (firstn 8 l) :: pack m (skipn 8 l) end.
Definition zeros_stream : bytes := pack 211 zeros_bits.
Lemma copy_zeros n m : 1 <= m -> copy n 1 (zrepeat 0 m) = zrepeat 0 (m + Z.of_nat n).
Proof.
  revert m. induction n as [|n IH]; intros m Hm; cbn [copy]; [now rewrite Z.add_0_r|].
  rewrite len_zrepeat, Z.max_r by lia.
  assert (nth (Z.to_nat (m - 1)) (zrepeat 0 m) 0 = 0) as -> by apply nth_repeat.
  replace (zrepeat 0 m ++ [0]) with (zrepeat 0 (m + 1)).
  - rewrite IH by lia. f_equal. lia.
  - unfold zrepeat. replace (Z.to_nat (m + 1)) with (Z.to_nat m + 1)%nat by lia. apply repeat_app.
Qed.
Lemma zrepeat_snoc m : 0 <= m -> zrepeat 0 m ++ [0] = zrepeat 0 (m + 1).
Proof.
  intros. unfold zrepeat. replace (Z.to_nat (m + 1)) with (Z.to_nat m + 1)%nat by lia. symmetry. apply (repeat_app 0 (Z.to_nat m) 1).
Qed.
Lemma zeros_bits_ok : stream_bits 0 [] zeros_bits (zrepeat 0 32769).
Proof.
  apply Last_block.
  set (c := codeword fixed_lengths 285 ++ lsb_bits 0 0 ++ codeword fixed_distances 0 ++ lsb_bits 0 0).
  assert (forall s, 0 <= s < 288 -> in_code fixed_lengths s) as Hin.
  { intros s Hs. split; [exact Hs|]. unfold code_len.
    assert (forallb (fun x => 0 <? nth (Z.to_nat x) fixed_lengths 0) (map Z.of_nat (seq 0 288)) = true) as C by reflexivity.
    rewrite forallb_forall in C. apply Z.ltb_lt. apply C. apply in_map_iff. exists (Z.to_nat s). rewrite in_seq. lia. }
  assert (token_bits fixed_lengths fixed_distances (Lit 0) (codeword fixed_lengths 0)) as HL by (constructor; [lia|apply Hin; lia]).
  assert (token_bits fixed_lengths fixed_distances (Copy 258 1) c) as HCp.
  { apply (Copy_bits _ _ 28 258 0 0 0 1 0 0); try reflexivity; try lia.
    - apply Hin. lia.
    - split; [cbn; lia|reflexivity]. }
  assert (forall n ts bs, tokens_bits fixed_lengths fixed_distances ts bs ->
    tokens_bits fixed_lengths fixed_distances (repeat (Copy 258 1) n ++ ts) (concat (repeat c n) ++ bs)) as HR.
  { induction n as [|n IH]; intros ts bs H; cbn [repeat concat app]; [exact H|]. rewrite <- app_assoc.
    apply More_tokens; [exact HCp|auto]. }
  assert (forall n m ts r, 1 <= m -> expands (zrepeat 0 (m + 258 * Z.of_nat n)) ts r -> expands (zrepeat 0 m) (repeat (Copy 258 1) n ++ ts) r) as HX.
  { induction n as [|n IH]; intros m ts r Hm H; cbn [repeat app].
    - replace (m + 258 * Z.of_nat 0) with m in H by lia. exact H.
    - apply Expand_copy; [rewrite len_zrepeat; lia|]. rewrite copy_zeros by lia. apply IH; [lia|].
      replace (m + Z.of_nat (Z.to_nat 258) + 258 * Z.of_nat n) with (m + 258 * Z.of_nat (S n)) by lia. exact H. }
  apply (Fixed_block _ _ (Lit 0 :: (repeat (Copy 258 1) 127 ++ [Lit 0; Lit 0]))).
  - apply More_tokens; [exact HL|]. fold c. apply HR.
    apply More_tokens; [exact HL|]. apply More_tokens; [exact HL|]. apply No_tokens. apply Hin. lia.
  - apply Expand_lit. change ([] ++ [0]) with (zrepeat 0 1). apply HX; [lia|].
    apply Expand_lit. rewrite zrepeat_snoc by lia. apply Expand_lit. rewrite zrepeat_snoc by lia.
    change (1 + 258 * Z.of_nat 127 + 1 + 1) with 32769. constructor.
Qed.
Theorem C50_thirty_two_kilobyte_boundary :
  deflates_to zeros_stream (zrepeat 0 32769) /\ len zeros_stream = 211 /\
  npy_inflate zeros_stream = Throw RuntimeError.
Proof.
  split; [|split; [vm_compute; reflexivity|vm_compute; reflexivity]]. split.
  - apply is_byteb_ok. vm_compute. reflexivity.
  - exists zeros_bits, (repeat false 3). split; [vm_compute; reflexivity|]. split; [reflexivity|apply zeros_bits_ok].
Qed.
Print Assumptions C50_thirty_two_kilobyte_boundary.
