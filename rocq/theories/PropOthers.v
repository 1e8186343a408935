(** Property C53: archives written by other programs. *)
From Coq Require Import String ZArith List Bool Lia Permutation Sorted.
From Verif Require Import Base Stream BaseFacts Dtype Values Spec ZipSpec ValuesFacts PropValues Header HeaderFacts
  ParseFacts ParserInv ParserRel NpyFacts PropHeader Tensor Npy TensorFacts PropTensor SaveFacts PropNpy PropForeign
  Crc PropCrc Npz NpzFacts ArchiveFacts PropNpz ForeignZip Arr DeflateSpec Tinfl BitFacts InflTop PropDeflate AssetsZip.
Import ListNotations.
Open Scope Z_scope.

(** *** Reader histories *)
Lemma after_serves v c a ms r r' : zip_file a ms -> serves a ms r -> reader_after v c r r' ->
  serves a ms r' /\ r_keys r' = r_keys r.
Proof.
  intros HZ HS HA. induction HA as [|r' d n g HA IH|r' n g HA IH]; [auto|..].
  - rewrite r_read_reader. destruct IH as [IH1 IH2]. destruct (serves_step v c a ms r' n HZ IH1). split; [assumption|congruence].
  - rewrite r_peek_reader. destruct IH as [IH1 IH2]. destruct (serves_step v c a ms r' n HZ IH1). split; [assumption|congruence].
Qed.
Lemma opened_zip a ms r : zip_directory a ms -> opened a r -> serves a ms r /\ r_keys r = sort_keys (map z_name ms).
Proof.
  intros HZ [H|H].
  - destruct (open_zip a ms (open_str a) HZ eq_refl eq_refl) as (r0 & H1 & H2 & H3 & _).
    unfold new_string_reader in H. rewrite H1 in H. injection H as <-. auto.
  - destruct (open_zip a ms (open_file a) HZ eq_refl eq_refl) as (r0 & H1 & H2 & H3 & _).
    unfold new_file_reader in H. rewrite H1 in H. injection H as <-. auto.
Qed.
Lemma contains_serves a ms r n : serves a ms r -> r_contains r n = true <-> In n (map z_name ms).
Proof.
  intros (E & _). unfold r_contains. rewrite E. unfold directory_map. rewrite efind_last.
  rewrite !map_map. cbn [f_name filed]. clear E.
  induction ms as [|m ms IH]; cbn [map last_filed In].
  - split; [discriminate|tauto].
  - destruct (last_filed (map (fun x : zfile => (z_name x, filed x)) ms) n) eqn:EL.
    + split; [intros _|reflexivity]. right. apply IH; reflexivity.
    + destruct (beq (z_name m) n) eqn:EB.
      * split; [intros _|reflexivity]. left. now apply beq_eq.
      * split; [discriminate|]. intros [<-|H]; [now rewrite beq_refl in EB|]. now apply IH in H.
Qed.

(** *** C53 *)
(** The archive opens, and its directory is what [keys] and [contains] show. *)
Theorem C53_archives_of_other_programs_open : forall a ms, zip_directory a ms ->
  (exists r, new_string_reader a = Ok r) /\ (exists r, new_file_reader (Some a) = Ok r) /\
  forall r, opened a r ->
    StronglySorted lex_le (r_keys r) /\ Permutation (r_keys r) (map z_name ms) /\
    forall n, r_contains r n = true <-> In n (map z_name ms).
Proof.
  intros a ms HZ.
  destruct (open_zip a ms (open_str a) HZ eq_refl eq_refl) as (r1 & H1 & _).
  destruct (open_zip a ms (open_file a) HZ eq_refl eq_refl) as (r2 & H2 & _).
  split; [exists r1; exact H1|]. split; [exists r2; exact H2|]. intros r Hop.
  destruct (opened_zip a ms r HZ Hop) as [HS HK]. rewrite HK. destruct (sort_sorted (map z_name ms)).
  split; [assumption|]. split; [assumption|]. intros n. eapply contains_serves; eassumption.
Qed.
Print Assumptions C53_archives_of_other_programs_open.

(** What a member holds, uncompressed: method 0 is stored, method 8 is DEFLATE. *)
Definition unpacked (m : zfile) (b : bytes) : Prop :=
  (z_method m = 0 /\ z_data m = b) \/ (z_method m = 8 /\ deflates_to (z_data m) b /\ (len b < 2 ^ 20 \/ len (z_data m) <= 2 ^ 21)).
Theorem C53_members_are_found_and_decoded : forall v c a ms r r' n g,
  c_inflate c = npy_inflate -> zip_file a ms -> opened a r -> reader_after v c r r' ->
  match member_named ms n with
  | None => (forall d, r_read v c d r' n g = (Throw InvalidArgument, r', g)) /\ r_peek v c r' n g = (Throw InvalidArgument, r', g)
  | Some m =>
      (z_name m = n \/ z_name m = n ++ str ".npy") /\
      forall b, unpacked m b -> (z_method m = 8 -> host_big v = false) -> bytes_ok b -> len b < 2 ^ 32 -> len (z_data m) <= mem v ->
      exists r'', (forall d, reader_after v c r r'' /\ 
        ((crc32_standard b = z_crc m /\
          (let '(o, _, g') := peek v (open_str b) g in r_peek v c r' n g = (o, r'', g')) /\
          (let '(o, _, g') := load v d (open_str b) g in r_read v c d r' n g = (o, r'', g'))) \/
         ((crc32_standard b <> z_crc m \/ (z_method m = 8 /\ may_be_refused (z_data m) b)) /\
          r_peek v c r' n g = (Throw RuntimeError, r'', g) /\ r_read v c d r' n g = (Throw RuntimeError, r'', g))))
  end.
Proof.
  intros v c a ms r r' n g HI HZ Hop Haf. destruct (opened_zip a ms r (proj1 HZ) Hop) as [HS HK].
  destruct (after_serves v c a ms r r' HZ HS Haf) as [HS' _].
  pose proof (find_member ms n) as HF. destruct (member_named ms n) as [m|] eqn:EM.
  - destruct HF as [HF HIn]. split.
    { unfold member_named in EM. cbv zeta in EM.
      assert (forall l k (x : zfile), last_filed (map (fun m => (z_name m, m)) l) k = Some x -> z_name x = k) as HN.
      { clear. induction l as [|y l IH]; intros k x; cbn [map last_filed]; [discriminate|].
        destruct (last_filed _ k) eqn:E; [intros [= <-]; now apply IH|]. destruct (beq (z_name y) k) eqn:EB; [|discriminate].
        intros [= <-]. now apply beq_eq. }
      destruct (last_filed _ n) eqn:E1; [left; injection EM as <-; eapply HN; eauto|right; eapply HN; eauto]. }
    intros b HU _ HB HL HM.
    destruct (read_zip v c a ms m r' n HZ HS') as (r'' & _ & _ & HR); [destruct HS' as (-> & _); exact HF|exact HIn|].
    exists r''. intros d. split.
    { replace r'' with (snd (fst (r_peek v c r' n g))) by (rewrite r_peek_reader, HR; reflexivity). now constructor. }
    destruct (len (z_data m) >? mem v) eqn:EM2; [lia|].
    destruct (C32_crc_is_standard b HB HL) as [HC _].
    assert ((if z_method m =? DEFLATED then c_inflate c (z_data m) else Ok (z_data m)) = Ok b \/
      ((if z_method m =? DEFLATED then c_inflate c (z_data m) else Ok (z_data m)) = Throw RuntimeError /\ z_method m = 8 /\ may_be_refused (z_data m) b)) as HD.
    { destruct HU as [[HU1 HU2]|(HU1 & HU2 & HU3)].
      - rewrite HU1, HU2. now left.
      - rewrite HU1, HI. change (8 =? DEFLATED) with true. cbv iota.
        destruct (C50_standard_deflate_streams _ _ HU2) as [HX _]. destruct (HX HU3) as [HX1|[HX1 HX2]]; auto. }
    destruct HD as [HD|(HD & H8 & H15)]; rewrite HD in HR.
    + destruct (npy_crc32 b =? z_crc m) eqn:EC.
      * left. split; [lia|]. split.
        -- destruct (peek v (open_str b) g) as [[o s] g'] eqn:E. unfold r_peek. rewrite HR, E. reflexivity.
        -- destruct (load v d (open_str b) g) as [[o s] g'] eqn:E. unfold r_read. rewrite HR, E. reflexivity.
      * right. split; [left; lia|]. unfold r_peek, r_read. now rewrite HR.
    + right. split; [now right|]. unfold r_peek, r_read. now rewrite HR.
  - assert (r_read_file v c r' n = (Throw InvalidArgument, r')) as HRF.
    { destruct HS' as (E & _). unfold r_read_file, read_file. rewrite E, HF. unfold lift. rewrite <- E. now destruct r'. }
    unfold r_read, r_peek. rewrite HRF. auto.
Qed.
Print Assumptions C53_members_are_found_and_decoded.

(** End to end: an array in an archive, both made by other programs. *)
Theorem C53_arrays_of_other_programs : forall v c a ms r r' name m b g es tail d big n fortran shape values start following,
  c_inflate c = npy_inflate -> (z_method m = 8 -> host_big v = false) -> zip_file a ms -> opened a r -> reader_after v c r r' -> prior_parses g ->
  member_named ms name = Some m -> unpacked m b -> crc32_standard b = z_crc m ->
  bytes_ok b -> len b < 2 ^ 32 -> (z_method m = 8 -> ~ may_be_refused (z_data m) b) -> len (z_data m) <= mem v ->
  (* [b] is an NPY file *)
  b = start ++ flat_map (PropForeign.stored_bytes d big n) values ++ following ->
  npy_start (dict_text es tail) start -> Forall layout_ok es ->
  Permutation (map value es) [FDescr (spelled d big n); FOrder fortran; FShape shape] ->
  0 <= n <= 2147483647 -> shape_ok shape -> len (tuple_body shape) < 65535 ->
  values_ok d values -> Forall no_nuls values -> Forall (at_most n) values ->
  len values = product shape -> product shape < 2 ^ 64 ->
  (is_complex_type d -> big = host_big v) ->
  len (dict_text es tail) <= mem v -> len values * item_size d <= mem v ->
  exists t r'' g', r_read v c d r' name g = (Ok t, r'', g') /\ reader_after v c r r'' /\ prior_parses g' /\
    t_dtype t = d /\ t_shape t = shape /\ t_fortran t = fortran /\ t_values t = values.
Proof.
  intros v c a ms r r' name m b g es tail d big n fo sh values start following HI HLE HZ Hop Haf Hg HN HU HC HB HL H15 HM Hb HSt
    HLay HP Hn Hs HT Hv HNn Hm Hlen H64 HCx HM1 HM2.
  pose proof (C53_members_are_found_and_decoded v c a ms r r' name g HI HZ Hop Haf) as H. rewrite HN in H.
  destruct H as [_ H]. destruct (H b HU HLE HB HL HM) as (r'' & Hr). destruct (Hr d) as [Ha [(_ & _ & HR)|([HR|[H8 HR]] & _)]]; [|congruence|].
  2:{ destruct (H15 H8 HR). }
  destruct (C51_files_of_other_writers v (open_str b) g es tail d big n fo sh values start following eq_refl Hg HLay HP Hn Hs HT Hv
    HNn Hm Hlen H64 HCx HSt Hb HM1 HM2) as (t & g' & HLd & Hg' & H1 & H2 & H3 & H4).
  rewrite HLd in HR. exists t, r'', g'. auto 10.
Qed.
Print Assumptions C53_arrays_of_other_programs.

(** *** What libnpy refuses *)
Definition halts {A} (m : IO A) (b : bytes) (e : exn) : Prop :=
  forall s tail, good s = true -> coherent s -> rest s = b ++ tail -> exists s', m s = (Throw e, s').
Lemma halts_bind {A B} (m : IO A) (k : A -> IO B) b1 b2 a e : scans m b1 a -> halts (k a) b2 e -> halts (bind m k) (b1 ++ b2) e.
Proof.
  intros H1 H2 s tail G C R. rewrite <- app_assoc in R. unfold bind. rewrite (H1 s _ G C R). apply H2 with (tail := tail); auto.
  eapply coherent_rest; eauto.
Qed.
Lemma halts_first {A B} (m : IO A) (k : A -> IO B) b e : halts m b e -> halts (bind m k) b e.
Proof. intros H s tail G C R. unfold bind. destruct (H s tail G C R) as [s' ->]. now exists s'. Qed.
Definition foreign_tag (extra : bytes) : Prop := exists tag more, extra = le16 tag ++ more /\ half tag /\ tag <> 1.
Lemma halts_extra h io extra : foreign_tag extra -> halts (read_zip64_extra h io) extra RuntimeError.
Proof.
  intros (tag & more & -> & Ht & Hn). unfold read_zip64_extra. eapply halts_bind; [now apply scans16|].
  assert (negb (tag =? ZIP64_TAG) = true) as -> by (change ZIP64_TAG with 1; apply negb_true_iff; lia).
  intros s tail _ _ _. now exists s.
Qed.
Lemma foreign_tag_len extra : foreign_tag extra -> 2 <= len extra.
Proof. intros (t & m & -> & _). rewrite len_app, len_le16. pose proof (len_nonneg _ m). lia. Qed.
Lemma halts_shared flags method time crc bc csize bu size (name : bytes) (k : Z * Z * Z * Z * Z -> IO file_entry) (rest_ : bytes) e :
  half flags -> half method -> word time -> word crc -> placed bc csize -> placed bu size -> len name < 2 ^ 16 ->
  halts (k (method, crc, if bc then 0xFFFFFFFF else csize, if bu then 0xFFFFFFFF else size, len name)) rest_ e ->
  halts (bind read_shared_header k)
    (le16 flags ++ le16 method ++ le32 time ++ le32 crc ++ field32 bc csize ++ field32 bu size ++ le16 (len name) ++ rest_) e.
Proof.
  intros H1 H2 H3 H4 H5 H6 H7 HK. pose proof (len_nonneg _ name).
  replace (le16 flags ++ le16 method ++ le32 time ++ le32 crc ++ field32 bc csize ++ field32 bu size ++ le16 (len name) ++ rest_)
    with ((le16 flags ++ le16 method ++ le32 time ++ le32 crc ++ field32 bc csize ++ field32 bu size ++ le16 (len name)) ++ rest_)
    by (now rewrite <- !app_assoc).
  eapply halts_bind; [|exact HK]. unfold read_shared_header.
  eapply scans_bind; [now apply scans16|]. eapply scans_bind; [now apply scans16|]. eapply scans_bind; [now apply scans32|].
  eapply scans_bind; [now apply scans32|]. eapply scans_bind; [now apply scans_field|]. eapply scans_bind; [now apply scans_field|].
  rewrite <- (app_nil_r (le16 (len name))). eapply scans_bind; [apply scans16; unfold half; lia|]. apply scans_ret.
Qed.
Lemma halts_local m extra : zfile_ok m -> foreign_tag extra -> len extra < 2 ^ 16 ->
  halts read_local_header (local_head m extra) RuntimeError.
Proof.
  intros (K1 & K2 & K3 & K4 & K5 & K6 & K7 & K8 & K9 & _) HT HL. unfold read_local_header, local_head.
  pose proof (foreign_tag_len _ HT).
  change (le32 0x04034b50) with LOCAL_HEADER_SIG.
  eapply halts_bind; [apply scans_sig; reflexivity|].
  eapply halts_bind; [apply scans16; unfold half; lia|].
  assert ((l_version m >? ZIP64_VERSION) = false) as -> by (unfold ZIP64_VERSION; lia).
  apply halts_shared; auto.
  eapply halts_bind; [apply scans16; unfold half; lia|].
  eapply halts_bind; [apply scans_name|].
  assert ((len extra >? 0) = true) as -> by lia. now apply halts_extra.
Qed.
Lemma halts_central m extra : zfile_ok m -> foreign_tag extra -> len extra < 2 ^ 16 ->
  halts read_cd_header (central_with m extra) RuntimeError.
Proof.
  intros (K1 & K2 & K3 & _ & _ & _ & _ & _ & _ & K4 & K5 & K6 & K7 & K8 & K9 & K10 & K11 & K12 & K13 & K14) HT HL.
  unfold read_cd_header, central_with. pose proof (foreign_tag_len _ HT).
  change (le32 0x02014b50) with CD_HEADER_SIG.
  eapply halts_bind; [apply scans_sig; reflexivity|].
  eapply halts_bind; [apply scans16; exact K4|].
  eapply halts_bind; [apply scans16; unfold half; lia|].
  assert ((c_version m >? ZIP64_VERSION) = false) as -> by (unfold ZIP64_VERSION; lia).
  apply halts_shared; auto.
  eapply halts_bind; [apply scans16; unfold half; lia|].
  eapply halts_bind; [apply scans16; unfold half; lia|].
  eapply halts_bind; [apply scans16; exact K12|].
  eapply halts_bind; [apply scans16; exact K13|].
  eapply halts_bind; [apply scans32; exact K14|].
  eapply halts_bind; [apply scans_field; exact K11|].
  eapply halts_bind; [apply scans_name|].
  assert ((len extra >? 0) = true) as -> by lia. now apply halts_extra.
Qed.
Lemma halts_directory ms m extra k : Forall zfile_ok ms -> zfile_ok m -> foreign_tag extra -> len extra < 2 ^ 16 ->
  (length ms < k)%nat -> forall mp keys,
  halts (read_cd_loop k mp keys) (flat_map central_record ms ++ central_with m extra) RuntimeError.
Proof.
  intros HO HM HT HL. revert k. induction HO as [|x ms Hx HO IH]; intros k Hk mp keys; (destruct k as [|k]; [cbn [length] in Hk; lia|]);
    cbn [read_cd_loop flat_map app].
  - apply halts_first. now apply halts_central.
  - rewrite <- app_assoc. eapply halts_bind; [now apply scans_central|]. apply IH. cbn [length] in Hk. lia.
Qed.

(** A directory entry with an extra field other than ZIP64 (timestamps, Unix user
    ids, ...) as its first: the archive does not open. *)
Theorem C53_other_extra_fields_refused : forall a ms m extra before between disk1 disk2 here total size,
  Forall zfile_ok ms -> zfile_ok m -> foreign_tag extra -> len extra < 2 ^ 16 ->
  a = before ++ flat_map central_record ms ++ central_with m extra ++ between
      ++ end_record disk1 disk2 here total size (len before) ->
  half disk1 -> half disk2 -> half here -> half total -> word size -> word (len before) -> len ms < here ->
  new_string_reader a = Throw RuntimeError /\ new_file_reader (Some a) = Throw RuntimeError.
Proof.
  intros a ms m extra before between d1 d2 here total size HO HM HT HX HA D1 D2 D3 D4 D5 D6 HN.
  assert (forall s, failb s = false -> whole s = a -> open_reader s = Throw RuntimeError) as H; [|split; apply H; reflexivity].
  intros s F HW. set (cd := flat_map central_record ms) in *. set (ce := central_with m extra) in *.
  pose proof (len_nonneg _ before). pose proof (len_nonneg _ cd). pose proof (len_nonneg _ ce). pose proof (len_nonneg _ between). pose proof (len_nonneg _ ms).
  assert (len (end_record d1 d2 here total size (len before)) = 22) as HE by reflexivity.
  assert (len (whole s) = len before + len cd + len ce + len between + 22) as HWL by (rewrite HW, HA, !len_app, HE; lia).
  unfold open_reader, read_entries. unfold bind at 1. unfold sseek_end.
  rewrite (seek_ok s) by (unfold CD_END_SIZE; lia || exact F).
  set (s1 := mk_istream (whole s) _ false false (is_file s)).
  assert (rest s1 = end_record d1 d2 here total size (len before)) as HR1.
  { unfold s1. cbn [rest]. rewrite HWL, HW, HA, !app_assoc. apply zdrop_app_exact. rewrite !len_app. unfold CD_END_SIZE. lia. }
  unfold bind at 1.
  rewrite (scans_end d1 d2 here total size (len before) D1 D2 D3 D4 D5 D6 s1 (le16 0)).
  2:{ reflexivity. } 2:{ apply coherent_at. } 2:{ rewrite HR1. unfold end_record. now rewrite <- !app_assoc. }
  cbv iota. unfold bind at 1. set (s2 := set_rest s1 (le16 0)).
  assert (whole s2 = whole s) as W2 by reflexivity.
  rewrite (seek_ok s2 (len before)) by (reflexivity || (rewrite W2, HWL; lia)).
  set (s3 := mk_istream (whole s2) _ false false (is_file s2)).
  assert (rest s3 = (cd ++ ce) ++ between ++ end_record d1 d2 here total size (len before)) as HR3.
  { unfold s3. cbn [rest]. rewrite W2, HW, HA, <- app_assoc. now apply zdrop_app_exact. }
  unfold bind.
  destruct (halts_directory ms m extra (Z.to_nat here) HO HM HT HX ltac:(unfold len in HN; lia) [] [] s3 _ eq_refl (coherent_at _ s2) HR3) as [s4 ->].
  reflexivity.
Qed.
Print Assumptions C53_other_extra_fields_refused.

(** A local header that disagrees with the directory - as in archives written to a
    pipe, where checksum and sizes follow the data - or that has another extra field:
    reading that member throws. *)
Definition local_refused (a : bytes) (m : zfile) : Prop :=
  exists m' before after extra, zfile_ok m' /\ len before = z_offset m /\
    a = before ++ local_with m' extra ++ after /\
    ((extra = extra_field (l_extra m') (z_size m') (len (z_data m')) None /\
      (z_name m', z_crc m', z_method m', len (z_data m'), z_size m') <> (z_name m, z_crc m, z_method m, len (z_data m), z_size m)) \/
     (foreign_tag extra /\ len extra < 2 ^ 16)).
Theorem C53_local_headers_must_agree : forall v c a ms r n m g,
  zip_directory a ms -> opened a r -> member_named ms n = Some m -> local_refused a m ->
  exists r', r_peek v c r n g = (Throw RuntimeError, r', g) /\
    forall d, r_read v c d r n g = (Throw RuntimeError, r', g).
Proof.
  intros v c a ms r n m g HZ Hop HN (m' & before & after & extra & HOk & HOff & HA & HD).
  destruct (opened_zip a ms r HZ Hop) as [(E & F & W) _].
  pose proof (find_member ms n) as HF. rewrite HN in HF. destruct HF as [HF HI].
  assert (exists s', read_file v c (r_entries r) n (r_in r) = (Throw RuntimeError, s')) as [s' HR].
  2:{ exists (mk_reader s' (r_entries r) (r_keys r)). unfold r_peek, r_read, r_read_file. rewrite HR. auto. }
  assert (zfile_ok m) as HOm by (destruct HZ as (_ & HO & _); eapply Forall_forall in HO; eauto).
  unfold read_file. rewrite E, HF. unfold bind at 1.
  change (f_offset (filed m)) with (z_offset m).
  assert (0 <= z_offset m < 2 ^ 63) as HRg by (destruct HOm as (_ & _ & _ & _ & _ & _ & _ & _ & _ & _ & _ & _ & _ & _ & _ & _ & [H _] & _); exact H).
  assert (s64 (z_offset m) = z_offset m) as -> by (unfold s64; destruct (_ <? _) eqn:EE; [reflexivity|lia]).
  pose proof (len_nonneg _ before). pose proof (len_nonneg _ after). pose proof (len_nonneg _ (local_with m' extra)).
  assert (len a = len before + len (local_with m' extra) + len after) as HLa by (rewrite HA at 1; rewrite !len_app; lia).
  rewrite (seek_ok (r_in r)) by (try exact F; rewrite W; lia).
  set (s1 := mk_istream (whole (r_in r)) _ false false _).
  assert (rest s1 = local_head m' extra ++ z_data m' ++ after) as HR1.
  { unfold s1. cbn [rest]. rewrite W, <- HOff. rewrite HA at 1. rewrite zdrop_app_exact by reflexivity. rewrite local_with_split. now rewrite <- app_assoc. }
  unfold bind at 1. destruct HD as [[-> HD]|[HT HX]].
  - rewrite (scans_local m' HOk s1 _ eq_refl (coherent_at _ _) HR1).
    assert (entry_check (filed m) (forget_offset (filed m')) = false) as ->.
    { apply not_true_is_false. intros HC. apply HD. unfold entry_check in HC.
      rewrite !andb_true_iff in HC. cbn [filed forget_offset f_name f_crc f_method f_csize f_usize] in HC.
      destruct HC as ((((C1 & C2) & C3) & C4) & C5). apply beq_eq in C1. apply Z.eqb_eq in C2, C3, C4, C5. congruence. }
    cbn [negb]. unfold lift. eexists. reflexivity.
  - destruct (halts_local m' extra HOk HT HX s1 _ eq_refl (coherent_at _ _) HR1) as [s' ->]. now exists s'.
Qed.
Print Assumptions C53_local_headers_must_agree.

(** An archive as numpy.savez writes it - ZIP64 field in the local header although the
    sizes are small - with the members in reverse order, a gap between them, one of
    them DEFLATEd, an unusual name, and a ZIP64 offset in the directory. *)
Definition case_file : bytes :=
  [147; 78; 85; 77; 80; 89; 2; 0; 61; 0; 0; 0] ++ str "{  'shape': (2, 1),'descr' :" ++ [10; 9] ++ str "'>U3',  'fortran_order':True,}" ++ [10]
  ++ flat_map (PropForeign.stored_bytes UNICODE_STRING true 3) [WStr [0x41; 0x1F600]; WStr []].
Definition case_member (at_ : Z) : zfile :=
  mk_zfile (str "a.npy") 0 (crc32_standard case_file) case_file (len case_file) at_
    45 0 0x21 (Some (mk_zip64 true true false [])) 0x31E 45 0 0x21 None 0 0 0x1A40000.
Definition case_packed (at_ : Z) : zfile :=
  mk_zfile (str "dir/b") 8 (crc32_standard case_file) ([1; 97; 0; 158; 255] ++ case_file) 97 at_
    20 2 0x53C68A5B None 0x31E 20 2 0x53C68A5B (Some (mk_zip64 false false true [7; 7; 7])) 0 1 0.
Definition case_zip : bytes :=
  [0; 0; 0] ++ local_record (case_packed 3) ++ [80; 75] ++ local_record (case_member 142)
  ++ flat_map central_record [case_member 142; case_packed 3] ++ end_record 0 0 2 2 114 294.
Example C53_case : zip_file case_zip [case_member 142; case_packed 3] /\
  member_named [case_member 142; case_packed 3] (str "a") = Some (case_member 142) /\
  unpacked (case_member 142) case_file /\ unpacked (case_packed 3) case_file /\ bytes_ok case_file /\
  exists r, opened case_zip r /\
    fst (fst (r_read case_env (mk_codec Ok npy_inflate) UNICODE_STRING r (str "dir/b") (zrepeat 0 65536, DTYPE_MAP))) =
      Ok (mk_tensor [2; 1] [2; 1] true UNICODE_STRING [WStr [0x41; 0x1F600]; WStr []]).
Proof.
  split; [split; [split; [reflexivity|split]|]|].
  - repeat constructor; vm_compute; intuition congruence.
  - eexists ([0; 0; 0] ++ local_record (case_packed 3) ++ [80; 75] ++ local_record (case_member 142)), [], 0, 0, 2, 114.
    split; [vm_compute; reflexivity|]. repeat split; vm_compute; congruence.
  - repeat constructor.
    + eexists ([0; 0; 0] ++ local_record (case_packed 3) ++ [80; 75]), _. split; [|vm_compute; reflexivity].
      unfold case_zip. rewrite <- !app_assoc. reflexivity.
    + eexists [0; 0; 0], _. split; [|vm_compute; reflexivity]. reflexivity.
  - split; [vm_compute; reflexivity|]. assert (bytes_ok case_file) as HB by (apply is_byteb_ok; vm_compute; reflexivity).
    split; [left; split; reflexivity|]. split.
    { right. split; [reflexivity|]. split; [|right; vm_compute; congruence]. apply one_stored_block_ok; [exact HB|vm_compute; reflexivity]. }
    split; [exact HB|].
    destruct (new_string_reader case_zip) as [r| | |] eqn:E; try (vm_compute in E; discriminate).
    exists r. split; [left; exact E|]. vm_compute in E. injection E as <-. vm_compute. reflexivity.
Qed.

(** The refusals happen: the same archive with the checksum and sizes of one local
    header zeroed and sent after the data; with a Unix timestamp field in the directory;
    and in a local header. *)
Definition stamp : bytes := le16 0x5455 ++ le16 5 ++ [1; 0; 0; 0; 0].
Definition case_streamed : zfile :=
  mk_zfile (str "a.npy") 0 0 [] 0 0 20 8 0x21 None 0x31E 20 8 0x21 None 0 0 0.
Definition case_central : zfile :=
  mk_zfile (str "a.npy") 0 (crc32_standard case_file) case_file (len case_file) 0 20 8 0x21 None 0x31E 20 8 0x21 None 0 0 0.
Definition case_pipe : bytes :=
  local_record case_streamed ++ case_file ++ le32 0x08074b50 ++ le32 (crc32_standard case_file) ++ le32 97 ++ le32 97
  ++ flat_map central_record [case_central] ++ end_record 0 0 1 1 51 148.
Definition case_stamped : bytes :=
  local_with case_central stamp ++ flat_map central_record [case_central] ++ end_record 0 0 1 1 51 141.
Example C53_refused_case : zip_directory case_pipe [case_central] /\ local_refused case_pipe case_central /\
  zip_directory case_stamped [case_central] /\ local_refused case_stamped case_central /\ foreign_tag stamp /\
  zfile_ok case_central /\
  new_string_reader (local_record case_central ++ central_with case_central stamp ++ end_record 0 0 1 1 60 132) = Throw RuntimeError.
Proof.
  assert (zfile_ok case_central) as H1 by (vm_compute; intuition congruence).
  assert (foreign_tag stamp) as H2 by (exists 0x5455, (le16 5 ++ [1; 0; 0; 0; 0]); split; [reflexivity|split; [split; [lia|reflexivity]|discriminate]]).
  split; [|split; [|split; [|split; [|split; [exact H2|split; [exact H1|vm_compute; reflexivity]]]]]].
  - split; [reflexivity|]. split; [constructor; [exact H1|constructor]|].
    eexists (local_record case_streamed ++ case_file ++ le32 0x08074b50 ++ le32 (crc32_standard case_file) ++ le32 97 ++ le32 97), [], 0, 0, 1, 51.
    split; [vm_compute; reflexivity|]. repeat split; vm_compute; congruence.
  - eexists case_streamed, [], _, _. split; [vm_compute; intuition congruence|]. split; [reflexivity|]. split; [reflexivity|].
    left. split; [reflexivity|]. vm_compute. congruence.
  - split; [reflexivity|]. split; [constructor; [exact H1|constructor]|].
    eexists (local_with case_central stamp), [], 0, 0, 1, 51.
    split; [vm_compute; reflexivity|]. repeat split; vm_compute; congruence.
  - eexists case_central, [], _, stamp. split; [exact H1|]. split; [reflexivity|]. split; [reflexivity|].
    right. split; [exact H2|reflexivity].
Qed.
