(** Reading ZIP files of other programs: header records. *)
From Coq Require Import String ZArith List Bool Lia.
From Verif Require Import Base Stream BaseFacts Dtype Values Spec Header Tensor Npy Crc PropCrc Npz NpzFacts ArchiveFacts ZipSpec.
Import ListNotations.
Open Scope Z_scope.
Local Open Scope monad_scope.

(** [m] consumes exactly [b], on any good stream whose unread part is a suffix of its
    contents. *)
Definition coherent (s : istream) : Prop := exists p, whole s = p ++ rest s.
Lemma coherent_rest s b tail : coherent s -> rest s = b ++ tail -> coherent (set_rest s tail).
Proof. intros [p Hp] HR. exists (p ++ b). cbn [set_rest whole rest]. now rewrite Hp, HR, app_assoc. Qed.
Definition scans {A} (m : IO A) (b : bytes) (a : A) : Prop :=
  forall s tail, good s = true -> coherent s -> rest s = b ++ tail -> m s = (Ok a, set_rest s tail).
Lemma reads_scans {A} (m : IO A) b a : reads m b a -> scans m b a.
Proof. intros H s tail G _ R. now apply H. Qed.
Lemma scans_bind {A B} (m : IO A) (k : A -> IO B) b1 b2 a c :
  scans m b1 a -> scans (k a) b2 c -> scans (bind m k) (b1 ++ b2) c.
Proof.
  intros H1 H2 s tail G C R. rewrite <- app_assoc in R. unfold bind. rewrite (H1 s _ G C R).
  rewrite (H2 (set_rest s (b2 ++ tail)) tail G (coherent_rest _ _ _ C R) eq_refl). now rewrite set_rest_set_rest.
Qed.
Lemma scans_eq {A} (m : IO A) b b' a a' : scans m b a -> b = b' -> a = a' -> scans m b' a'.
Proof. now intros H <- <-. Qed.
Lemma scans_ret {A} (a : A) : scans (ret a) [] a. Proof. apply reads_scans, reads_ret. Qed.
(** skipping *)
Lemma scans_skip {A} (a : A) (b : bytes) : scans (fun s => (Ok a, sseek_cur (len b) s)) b a.
Proof.
  intros s tail G [p Hp] R. f_equal. unfold sseek_cur, sseek_abs, spos.
  apply andb_true_iff in G as [G1 G2]. apply negb_true_iff in G1. apply negb_true_iff in G2. rewrite G2.
  pose proof (len_nonneg _ p). pose proof (len_nonneg _ b). pose proof (len_nonneg _ tail).
  assert (len (whole s) = len p + len b + len tail) as HW by (rewrite Hp, R, !len_app; lia).
  assert (len (rest s) = len b + len tail) as HRs by (rewrite R, len_app; lia).
  replace (len (whole s) - len (rest s) + len b) with (len (p ++ b)) by (rewrite len_app; lia).
  rewrite len_app. destruct (_ || _) eqn:E.
  { apply orb_true_iff in E as [E|E]; [lia|]. apply andb_true_iff in E as [_ E]. lia. }
  unfold set_rest. cbn [whole rest eofb failb is_file]. rewrite G1, G2. f_equal.
  rewrite Hp, R, app_assoc. apply zdrop_app_exact. now rewrite len_app.
Qed.

(** *** Integers, in the notation of the specification *)
Lemma scans16 x : half x -> scans rd16 (le16 x) x.
Proof. intros H. apply reads_scans. eapply reads_eq; [apply (reads16 x); exact H| |reflexivity]. rewrite write16_put by exact H. apply put_le_bytes. Qed.
Lemma scans32 x : word x -> scans rd32 (le32 x) x.
Proof. intros H. apply reads_scans. eapply reads_eq; [apply (reads32 x); exact H| |reflexivity]. apply put_le_bytes. Qed.
Lemma scans64 x : 0 <= x < 2 ^ 64 -> scans rd64 (le64 x) x.
Proof. intros H. apply reads_scans. eapply reads_eq; [apply (reads64 x); exact H| |reflexivity]. apply put_le_bytes. Qed.
Lemma scans_name n : scans (read_name (len n)) n n. Proof. apply reads_scans, reads_name. Qed.
Lemma scans_sig sig : len sig = 4 -> scans (assert_sig sig) sig tt. Proof. intros H. now apply reads_scans, reads_sig. Qed.
Lemma scans_field b x : placed b x -> scans rd32 (field32 b x) (if b then 0xFFFFFFFF else x).
Proof. intros [H1 H2]. apply scans32. unfold word. destruct b; [lia|]. specialize (H2 eq_refl). lia. Qed.
Lemma field_is_placeholder b x : placed b x -> ((if b then 0xFFFFFFFF else x) =? ZIP64_PLACEHOLDER) = b.
Proof. intros [H1 H2]. destruct b; [reflexivity|]. specialize (H2 eq_refl). apply Z.eqb_neq. unfold ZIP64_PLACEHOLDER. lia. Qed.
Lemma scans_opt64 (b : bool) x y : (b = true -> 0 <= x < 2 ^ 64) ->
  scans (if b then u <- rd64 ;; ret (u, 8) else ret (y, 0)) (if b then le64 x else []) (if b then (x, 8) else (y, 0)).
Proof.
  intros H. destruct b; [|apply scans_ret]. rewrite <- (app_nil_r (le64 x)). eapply scans_bind; [apply scans64; auto|apply scans_ret].
Qed.
Lemma len_le64 x : len (le64 x) = 8. Proof. reflexivity. Qed.
Lemma len_le16 x : len (le16 x) = 2. Proof. reflexivity. Qed.
Lemma len_le32 x : len (le32 x) = 4. Proof. reflexivity. Qed.

(** *** The ZIP64 extra field *)
Lemma scans_zip64 name crc method x io size csize offset :
  placed (x_size x) size -> placed (x_csize x) csize -> (io = true -> placed (x_offset x) offset) ->
  len (x_unused x) < 65000 ->
  scans (read_zip64_extra (mk_entry name crc (if x_csize x then 0xFFFFFFFF else csize) (if x_size x then 0xFFFFFFFF else size) method
                             (if io then if x_offset x then 0xFFFFFFFF else offset else 0)) io)
        (extra_field (Some x) size csize (if io then Some offset else None))
        (mk_entry name crc csize size method (if io then offset else 0)).
Proof.
  intros H1 H2 H3 HU. unfold read_zip64_extra, extra_field. cbn [f_name f_crc f_csize f_usize f_method f_offset].
  set (bo := io && x_offset x).
  match goal with |- context [?m ++ x_unused x] =>
    replace m with (if bo then le64 offset else []) by (unfold bo; destruct io; [|reflexivity]; destruct (x_offset x); reflexivity) end.
  set (un := x_unused x) in *. pose proof (len_nonneg _ un) as HU0.
  set (k := (if x_size x then 8 else 0) + (if x_csize x then 8 else 0) + (if bo then 8 else 0)).
  assert (0 <= k <= 24) as Hk by (unfold k; destruct (x_size x), (x_csize x), bo; lia).
  set (body := (if x_size x then le64 size else []) ++ _).
  assert (len body = k + len un) as HB.
  { unfold body, k. rewrite !len_app. destruct (x_size x), (x_csize x), bo; rewrite ?len_le64, ?len_nil; lia. }
  eapply scans_bind; [apply scans16; unfold half; lia|]. change (negb (1 =? ZIP64_TAG)) with false. cbv iota.
  eapply scans_bind; [apply scans16; unfold half; lia|].
  rewrite (field_is_placeholder _ _ H1), (field_is_placeholder _ _ H2).
  assert (io && ((if io then if x_offset x then 0xFFFFFFFF else offset else 0) =? ZIP64_PLACEHOLDER) = bo) as ->.
  { unfold bo. destruct io; [|reflexivity]. cbn [andb]. now rewrite (field_is_placeholder _ _ (H3 eq_refl)). }
  unfold body. destruct H1 as [H1 _], H2 as [H2 _].
  eapply scans_bind; [apply (scans_opt64 (x_size x) size (if x_size x then 0xFFFFFFFF else size)); intros _; lia|].
  eapply scans_bind; [apply (scans_opt64 (x_csize x) csize (if x_csize x then 0xFFFFFFFF else csize)); intros _; lia|].
  eapply scans_bind.
  { apply (scans_opt64 bo offset (if io then if x_offset x then 0xFFFFFFFF else offset else 0)).
    unfold bo. intros Hb. apply andb_true_iff in Hb as [Hb _]. destruct (H3 Hb) as [H4 _]. lia. }
  assert (snd (if x_size x then (size, 8) else (if x_size x then 0xFFFFFFFF else size, 0))
    + snd (if x_csize x then (csize, 8) else (if x_csize x then 0xFFFFFFFF else csize, 0))
    + snd (if bo then (offset, 8) else (if io then if x_offset x then 0xFFFFFFFF else offset else 0, 0)) = k) as ->
    by (unfold k; destruct (x_size x), (x_csize x), bo; reflexivity).
  assert (mk_entry name crc (fst (if x_csize x then (csize, 8) else (if x_csize x then 0xFFFFFFFF else csize, 0)))
    (fst (if x_size x then (size, 8) else (if x_size x then 0xFFFFFFFF else size, 0))) method
    (fst (if bo then (offset, 8) else (if io then if x_offset x then 0xFFFFFFFF else offset else 0, 0)))
    = mk_entry name crc csize size method (if io then offset else 0)) as ->.
  { f_equal; [destruct (x_csize x); reflexivity|destruct (x_size x); reflexivity|].
    unfold bo. destruct io; [|reflexivity]. destruct (x_offset x); reflexivity. }
  fold body. rewrite HB. assert ((k + len un <? k) = false) as -> by lia. destruct (k + len un >? k) eqn:E.
  - replace (k + len un - k) with (len un) by lia. apply scans_skip.
  - assert (un = []) as -> by (apply len_0_nil; lia). apply scans_ret.
Qed.

(** *** Directory and local records *)
Lemma extra_len o size csize offset : extra_ok o -> 0 <= len (extra_field o size csize offset) < 65536 /\
  (len (extra_field o size csize offset) >? 0) = match o with Some _ => true | None => false end.
Proof.
  destruct o as [x|]; cbn [extra_ok extra_field]; [|intros _; split; [change (len (@nil Z)) with 0; lia|reflexivity]].
  intros H. rewrite !len_app, !len_le16. pose proof (len_nonneg _ (x_unused x)).
  set (a := if x_size x then _ else _). set (b := if x_csize x then _ else _). set (c := match offset with Some _ => _ | None => _ end).
  assert (0 <= len a <= 8) by (unfold a; destruct (x_size x); rewrite ?len_le64, ?len_nil; lia).
  assert (0 <= len b <= 8) by (unfold b; destruct (x_csize x); rewrite ?len_le64, ?len_nil; lia).
  assert (0 <= len c <= 8) by (unfold c; destruct offset; [destruct (x_offset x)|]; rewrite ?len_le64, ?len_nil; lia).
  split; [lia|]. lia.
Qed.
(** What the directory says of a member. *)
Definition filed (m : zfile) : file_entry :=
  mk_entry (z_name m) (z_crc m) (len (z_data m)) (z_size m) (z_method m) (z_offset m).
Definition local_head (m : zfile) (extra : bytes) : bytes :=
  le32 0x04034b50 ++ le16 (l_version m) ++ le16 (l_flags m) ++ le16 (z_method m) ++ le32 (l_time m)
  ++ le32 (z_crc m) ++ field32 (moved (l_extra m) x_csize) (len (z_data m))
  ++ field32 (moved (l_extra m) x_size) (z_size m)
  ++ le16 (len (z_name m)) ++ le16 (len extra) ++ z_name m ++ extra.
Definition l_extra_bytes (m : zfile) : bytes := extra_field (l_extra m) (z_size m) (len (z_data m)) None.
Lemma local_with_split m extra : local_with m extra = local_head m extra ++ z_data m.
Proof. unfold local_with, local_head. now rewrite <- !app_assoc. Qed.
Lemma local_split m : local_record m = local_head m (l_extra_bytes m) ++ z_data m.
Proof. apply local_with_split. Qed.
Lemma scans_shared flags method time crc bc csize bu size (name : bytes) (k : Z * Z * Z * Z * Z -> IO file_entry) (rest_ : bytes) e :
  half flags -> half method -> word time -> word crc -> placed bc csize -> placed bu size -> len name < 2 ^ 16 ->
  scans (k (method, crc, if bc then 0xFFFFFFFF else csize, if bu then 0xFFFFFFFF else size, len name)) rest_ e ->
  scans (bind read_shared_header k)
    (le16 flags ++ le16 method ++ le32 time ++ le32 crc ++ field32 bc csize ++ field32 bu size ++ le16 (len name) ++ rest_) e.
Proof.
  intros H1 H2 H3 H4 H5 H6 H7 HK. pose proof (len_nonneg _ name).
  replace (le16 flags ++ le16 method ++ le32 time ++ le32 crc ++ field32 bc csize ++ field32 bu size ++ le16 (len name) ++ rest_)
    with ((le16 flags ++ le16 method ++ le32 time ++ le32 crc ++ field32 bc csize ++ field32 bu size ++ le16 (len name)) ++ rest_)
    by (now rewrite <- !app_assoc).
  eapply scans_bind; [|exact HK]. unfold read_shared_header.
  eapply scans_bind; [now apply scans16|]. eapply scans_bind; [now apply scans16|]. eapply scans_bind; [now apply scans32|].
  eapply scans_bind; [now apply scans32|]. eapply scans_bind; [now apply scans_field|]. eapply scans_bind; [now apply scans_field|].
  rewrite <- (app_nil_r (le16 (len name))). eapply scans_bind; [apply scans16; unfold half; lia|]. apply scans_ret.
Qed.
Lemma scans_local m : zfile_ok m -> scans read_local_header (local_head m (l_extra_bytes m)) (forget_offset (filed m)).
Proof.
  intros (K1 & K2 & K3 & K4 & K5 & K6 & K7 & K8 & K9 & _). unfold read_local_header, local_head, l_extra_bytes.
  set (extra := extra_field (l_extra m) _ _ _).
  destruct (extra_len (l_extra m) (z_size m) (len (z_data m)) None K7) as [HX1 HX2]. fold extra in HX1, HX2.
  change (le32 0x04034b50) with LOCAL_HEADER_SIG.
  eapply scans_bind; [apply scans_sig; reflexivity|].
  eapply scans_bind; [apply scans16; unfold half; lia|].
  assert ((l_version m >? ZIP64_VERSION) = false) as -> by (unfold ZIP64_VERSION; lia).
  apply scans_shared; auto.
  eapply scans_bind; [apply scans16; unfold half; lia|].
  eapply scans_bind; [apply scans_name|].
  rewrite HX2. unfold extra, forget_offset, filed. cbn [f_name f_crc f_csize f_usize f_method].
  destruct (l_extra m) as [x|].
  - apply (scans_zip64 (z_name m) (z_crc m) (z_method m) x false (z_size m) (len (z_data m)) 0); auto. discriminate.
  - apply scans_ret.
Qed.
Lemma scans_central m : zfile_ok m -> scans read_cd_header (central_record m) (filed m).
Proof.
  intros (K1 & K2 & K3 & _ & _ & _ & _ & _ & _ & K4 & K5 & K6 & K7 & K8 & K9 & K10 & K11 & K12 & K13 & K14).
  unfold read_cd_header, central_record, central_with.
  set (extra := extra_field (c_extra m) _ _ _).
  destruct (extra_len (c_extra m) (z_size m) (len (z_data m)) (Some (z_offset m)) K8) as [HX1 HX2]. fold extra in HX1, HX2.
  change (le32 0x02014b50) with CD_HEADER_SIG.
  eapply scans_bind; [apply scans_sig; reflexivity|].
  eapply scans_bind; [apply scans16; exact K4|].
  eapply scans_bind; [apply scans16; unfold half; lia|].
  assert ((c_version m >? ZIP64_VERSION) = false) as -> by (unfold ZIP64_VERSION; lia).
  apply scans_shared; auto.
  eapply scans_bind; [apply scans16; unfold half; lia|].
  eapply scans_bind; [apply scans16; unfold half; lia|].
  eapply scans_bind; [apply scans16; exact K12|].
  eapply scans_bind; [apply scans16; exact K13|].
  eapply scans_bind; [apply scans32; exact K14|].
  eapply scans_bind; [apply scans_field; exact K11|].
  eapply scans_bind; [apply scans_name|].
  rewrite HX2. unfold extra, filed. destruct (c_extra m) as [x|].
  - apply (scans_zip64 (z_name m) (z_crc m) (z_method m) x true (z_size m) (len (z_data m)) (z_offset m)); auto.
  - apply scans_ret.
Qed.
Lemma scans_directory ms : forall mp keys, Forall zfile_ok ms ->
  scans (read_cd_loop (length ms) mp keys) (flat_map central_record ms)
    (directory_map (map filed ms) ++ mp, keys ++ map z_name ms).
Proof.
  induction ms as [|m ms IH]; intros mp keys H; cbn [length read_cd_loop flat_map map].
  - rewrite app_nil_r. apply scans_ret.
  - inversion H as [|? ? H1 H2]; subst. eapply scans_bind; [now apply scans_central|].
    eapply scans_eq; [apply (IH _ _ H2)|reflexivity|]. f_equal.
    + unfold directory_map. cbn [map rev]. now rewrite <- app_assoc.
    + now rewrite <- app_assoc.
Qed.
Lemma scans_end d1 d2 n total size offset : half d1 -> half d2 -> half n -> half total -> word size -> word offset ->
  scans read_eocd (le32 0x06054b50 ++ le16 d1 ++ le16 d2 ++ le16 n ++ le16 total ++ le32 size ++ le32 offset) (n, size, offset).
Proof.
  intros. change (le32 0x06054b50) with CD_END_SIG. unfold read_eocd.
  eapply scans_bind; [apply scans_sig; reflexivity|].
  do 4 (eapply scans_bind; [now apply scans16|]). eapply scans_bind; [now apply scans32|].
  rewrite <- (app_nil_r (le32 offset)). eapply scans_bind; [now apply scans32|]. apply scans_ret.
Qed.

(** *** Opening and reading *)
Definition serves (a : bytes) (ms : list zfile) (r : reader) : Prop :=
  r_entries r = directory_map (map filed ms) /\ failb (r_in r) = false /\ whole (r_in r) = a.
Lemma coherent_at p s : coherent (mk_istream (whole s) (zdrop p (whole s)) false false (is_file s)).
Proof. exists (ztake p (whole s)). cbn [whole rest]. symmetry. apply ztake_zdrop. Qed.
Lemma open_zip a ms s : zip_directory a ms -> failb s = false -> whole s = a ->
  exists r, open_reader s = Ok r /\ serves a ms r /\ r_keys r = sort_keys (map z_name ms) /\ is_file (r_in r) = is_file s.
Proof.
  intros (HN & HO & before & between & d1 & d2 & total & size & HA & D1 & D2 & D3 & D4 & D5) F HW.
  set (cd := flat_map central_record ms) in *.
  pose proof (len_nonneg _ before). pose proof (len_nonneg _ cd). pose proof (len_nonneg _ between). pose proof (len_nonneg _ ms).
  assert (len (end_record d1 d2 (len ms) total size (len before)) = 22) as HE by reflexivity.
  assert (len (whole s) = len before + len cd + len between + 22) as HWL by (rewrite HW, HA, !len_app, HE; lia).
  unfold open_reader, read_entries. unfold bind at 1. unfold sseek_end.
  rewrite (seek_ok s) by (unfold CD_END_SIZE; lia || exact F).
  set (s1 := mk_istream (whole s) _ false false (is_file s)).
  assert (rest s1 = end_record d1 d2 (len ms) total size (len before)) as HR1.
  { unfold s1. cbn [rest]. rewrite HWL, HW, HA, !app_assoc. apply zdrop_app_exact. rewrite !len_app. unfold CD_END_SIZE. lia. }
  unfold bind at 1.
  rewrite (scans_end d1 d2 (len ms) total size (len before) D1 D2 ltac:(unfold half; lia) D3 D4 D5 s1 (le16 0)).
  2:{ reflexivity. } 2:{ apply coherent_at. } 2:{ rewrite HR1. unfold end_record. now rewrite <- !app_assoc. }
  cbv iota. unfold bind at 1. set (s2 := set_rest s1 (le16 0)).
  assert (whole s2 = whole s) as W2 by reflexivity.
  rewrite (seek_ok s2 (len before)) by (reflexivity || (rewrite W2, HWL; lia)).
  set (s3 := mk_istream (whole s2) _ false false (is_file s2)).
  assert (rest s3 = cd ++ between ++ end_record d1 d2 (len ms) total size (len before)) as HR3.
  { unfold s3. cbn [rest]. rewrite W2, HW, HA. now apply zdrop_app_exact. }
  unfold bind. assert (Z.to_nat (len ms) = length ms) as -> by (unfold len; apply Nat2Z.id).
  rewrite (scans_directory ms [] [] HO s3 _ eq_refl (coherent_at _ s2) HR3).
  unfold ret. eexists. split; [reflexivity|]. unfold serves. cbn [r_entries r_keys r_in fst snd]. rewrite app_nil_r. auto.
Qed.
Lemma read_zip v c a ms m r n : zip_file a ms -> serves a ms r -> find_entry (r_entries r) n = Some (filed m) -> In m ms ->
  exists r', serves a ms r' /\ r_keys r' = r_keys r /\ r_read_file v c r n =
    (if len (z_data m) >? mem v then Throw AllocError else
     match (if z_method m =? DEFLATED then c_inflate c (z_data m) else Ok (z_data m)) with
     | Ok b => if npy_crc32 b =? z_crc m then Ok b else Throw RuntimeError
     | x => x end, r').
Proof.
  intros ((_ & HO & _) & HH) (E & F & W) HF HI.
  assert (zfile_ok m) as HOk by (eapply Forall_forall in HO; eauto).
  assert (holds_local a m) as (before & after & HA & HOff) by (eapply Forall_forall in HH; eauto).
  unfold r_read_file, read_file. rewrite HF. unfold bind at 1.
  change (f_offset (filed m)) with (z_offset m).
  assert (0 <= z_offset m < 2 ^ 63) as HR by (destruct HOk as (_ & _ & _ & _ & _ & _ & _ & _ & _ & _ & _ & _ & _ & _ & _ & _ & [H _] & _); exact H).
  assert (s64 (z_offset m) = z_offset m) as -> by (unfold s64; destruct (_ <? _) eqn:EE; [reflexivity|lia]).
  pose proof (len_nonneg _ before). pose proof (len_nonneg _ after). pose proof (len_nonneg _ (local_record m)).
  assert (len a = len before + len (local_record m) + len after) as HLa by (rewrite HA at 1; rewrite !len_app; lia).
  rewrite (seek_ok (r_in r)) by (try exact F; rewrite W; lia).
  set (s1 := mk_istream (whole (r_in r)) _ false false _).
  assert (rest s1 = local_head m (l_extra_bytes m) ++ z_data m ++ after) as HR1.
  { unfold s1. cbn [rest]. rewrite W, <- HOff. rewrite HA at 1. rewrite zdrop_app_exact by reflexivity. rewrite local_split. now rewrite <- app_assoc. }
  unfold bind at 1. rewrite (scans_local m HOk s1 _ eq_refl (coherent_at _ _) HR1).
  rewrite entry_check_refl. cbn [negb]. change (f_csize (filed m)) with (len (z_data m)).
  change (f_method (filed m)) with (z_method m). change (f_crc (filed m)) with (z_crc m).
  destruct (len (z_data m) >? mem v) eqn:EM.
  { eexists. split; [|split; [|reflexivity]]; [|reflexivity]. unfold serves. cbn [r_entries r_in]. auto. }
  unfold bind at 1.
  rewrite (reads_name (z_data m) (set_rest s1 (z_data m ++ after)) after eq_refl eq_refl).
  set (s2 := set_rest (set_rest s1 (z_data m ++ after)) after).
  exists (mk_reader s2 (r_entries r) (r_keys r)). split; [unfold serves; cbn [r_entries r_in]; auto|]. split; [reflexivity|].
  destruct (z_method m =? DEFLATED).
  - unfold bind, lift. destruct (c_inflate c (z_data m)) as [b| | |]; try reflexivity. destruct (npy_crc32 b =? z_crc m); reflexivity.
  - unfold bind, ret. destruct (npy_crc32 (z_data m) =? z_crc m); reflexivity.
Qed.
Lemma find_member ms n : match member_named ms n with
  | Some m => find_entry (directory_map (map filed ms)) n = Some (filed m) /\ In m ms
  | None => find_entry (directory_map (map filed ms)) n = None end.
Proof.
  assert (forall k, efind (directory_map (map filed ms)) k = option_map filed (last_filed (map (fun m => (z_name m, m)) ms) k)) as HE.
  { intros k. unfold directory_map. rewrite efind_last, <- last_filed_map. f_equal. rewrite !map_map. reflexivity. }
  assert (forall k m, last_filed (map (fun m => (z_name m, m)) ms) k = Some m -> In m ms) as HI.
  { intros k m. clear HE. induction ms as [|m0 ms' IH]; [discriminate|]. cbn [map last_filed].
    destruct (last_filed (map (fun m => (z_name m, m)) ms') k) as [m1|].
    - intros [= <-]. right. now apply IH.
    - destruct (beq (z_name m0) k); [|discriminate]. intros [= <-]. now left. }
  unfold member_named, find_entry. cbv zeta. rewrite !HE.
  destruct (last_filed (map (fun m => (z_name m, m)) ms) n) as [m|] eqn:E1; cbn [option_map].
  - split; [reflexivity|]. eapply HI; eauto.
  - destruct (last_filed (map (fun m => (z_name m, m)) ms) (n ++ str ".npy")) as [m|] eqn:E2; cbn [option_map]; [|reflexivity].
    split; [reflexivity|]. eapply HI; eauto.
Qed.
Lemma serves_step v c a ms r n : zip_file a ms -> serves a ms r ->
  serves a ms (snd (r_read_file v c r n)) /\ r_keys (snd (r_read_file v c r n)) = r_keys r.
Proof.
  intros HZ HS. pose proof (find_member ms n) as HF. destruct (member_named ms n) as [m|].
  - destruct HF as [HF HI]. destruct (read_zip v c a ms m r n HZ HS) as (r' & H1 & H2 & H3).
    + destruct HS as (-> & _). exact HF.
    + exact HI.
    + rewrite H3. cbn [snd]. auto.
  - destruct HS as (E & F & W). unfold r_read_file, read_file. rewrite E, HF. unfold lift. cbn [snd]. unfold serves. cbn. auto.
Qed.
