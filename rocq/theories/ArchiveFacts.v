(** Layout of written archives, and reading them back. *)
From Coq Require Import String ZArith List Bool Lia Permutation.
From Verif Require Import Base Stream BaseFacts Dtype Values Spec Header Tensor Npy Crc Npz NpzFacts PropCrc.
Import ListNotations.
Open Scope Z_scope.
Local Open Scope monad_scope.

(** What is stored for content [b]. *)
Definition stored_as (c : codec) (m : Z) (b cb : bytes) : Prop :=
  (m = STORED /\ cb = b) \/ (m = DEFLATED /\ c_deflate c b = Ok cb).
Definition entry_for (m : Z) (n b cb : bytes) (off : Z) : file_entry :=
  mk_entry n (npy_crc32 b) (len cb) (len b) m off.
Definition block (e : file_entry) (cb : bytes) : bytes :=
  write_local_header e ((f_usize e >? ZIP64_LIMIT) || (f_csize e >? ZIP64_LIMIT)) ++ cb.

Definition placement := (file_entry * (bytes * bytes))%type.
Inductive laid (c : codec) (m : Z) : Z -> list (bytes * bytes) -> list placement -> Prop :=
| laid_nil off : laid c m off [] []
| laid_cons off n b cb r ps :
    stored_as c m b cb -> bytes_ok b -> len b < 2 ^ 32 -> len cb < 2 ^ 32 -> len n < 65536 -> 0 <= off < 2 ^ 32 ->
    laid c m (off + len (block (entry_for m n b cb off) cb)) r ps ->
    laid c m off ((n, b) :: r) ((entry_for m n b cb off, (b, cb)) :: ps).
Definition blocks (ps : list placement) : bytes := flat_map (fun p => block (fst p) (snd (snd p))) ps.
Definition dir (ps : list placement) : list file_entry := map fst ps.

(** One write. *)
Lemma npy_crc32_range b : bytes_ok b -> len b < 2 ^ 32 -> 0 <= npy_crc32 b < 2 ^ 32.
Proof. intros H1 H2. now apply C32_crc_is_standard. Qed.
Lemma entry_for_ok m n b cb off : m = STORED \/ m = DEFLATED -> bytes_ok b -> len b < 2 ^ 32 -> len cb < 2 ^ 32 ->
  len n < 65536 -> 0 <= off < 2 ^ 32 -> entry_ok (entry_for m n b cb off).
Proof.
  intros Hm Hb H1 H2 H3 H4. pose proof (npy_crc32_range b Hb H1).
  pose proof (len_nonneg _ b). pose proof (len_nonneg _ cb).
  repeat split; cbn [entry_for f_name f_crc f_csize f_usize f_method f_offset]; try lia;
    destruct Hm as [-> | ->]; unfold STORED, DEFLATED; lia.
Qed.
Lemma stored_method c m b cb : stored_as c m b cb -> m = STORED \/ m = DEFLATED.
Proof. intros [[H _]|[H _]]; auto. Qed.

Definition pick (c : codec) (m : Z) (b : bytes) : outcome bytes :=
  if m =? STORED then Ok b else if m =? DEFLATED then c_deflate c b else Throw InvalidArgument.
Lemma w_write_file_ok c w n b w' : w_closed w = false -> o_ok (w_out w) = true ->
  len (o_bytes (w_out w)) < 2 ^ 32 -> len b < 2 ^ 32 ->
  (forall cb, c_deflate c b = Ok cb -> len cb < 2 ^ 32) ->
  w_write_file c w n b = Ok w' ->
  exists cb, stored_as c (w_method w) b cb /\ len cb < 2 ^ 32 /\
    let e := entry_for (w_method w) n b cb (len (o_bytes (w_out w))) in
    w' = mk_writer false (mk_ostream (o_bytes (w_out w) ++ block e cb) true) (w_method w) (w_endian w) (w_entries w ++ [e]).
Proof.
  intros Hc Ho HL Hb HD H. unfold w_write_file, w_write_file_on in H; fold write_file in H. rewrite Hc in H. unfold write_file, write_file_on in H.
  set (m := w_method w) in *. pose proof (len_nonneg _ b) as Hb0. pose proof (len_nonneg _ (o_bytes (w_out w))) as Ho0.
  assert (u32 (len b) = len b) as HU by (unfold u32; apply Z.mod_small; lia). rewrite HU in H.
  assert (exists cb : bytes, stored_as c m b cb /\ len cb < 2 ^ 32 /\
     pick c m b = Ok cb /\
     (if m =? STORED then len b else u32 (len cb)) = len cb) as (cb & HS & HL2 & HE & HC).
  { unfold pick in *. destruct (m =? STORED) eqn:E1.
    - apply Z.eqb_eq in E1. exists b. repeat split; auto. left. auto.
    - destruct (m =? DEFLATED) eqn:E2; [|discriminate]. apply Z.eqb_eq in E2.
      destruct (c_deflate c b) as [cb|?| |?] eqn:ED; try discriminate.
      exists cb. specialize (HD _ eq_refl). pose proof (len_nonneg _ cb).
      repeat split; auto; [right; auto|]. unfold u32. apply Z.mod_small. lia. }
  exists cb. split; [exact HS|]. split; [exact HL2|].
  match type of H with context [@obind bytes _ ?x _] => change x with (pick c m b) in H end.
  rewrite HE in H. cbn [obind] in H. rewrite HC in H.
  unfold otellp in H. rewrite Ho in H.
  assert (u32 (len (o_bytes (w_out w))) = len (o_bytes (w_out w))) as HU2 by (unfold u32; apply Z.mod_small; lia).
  rewrite HU2 in H.
  assert (u16 m = m) as HM by (destruct (stored_method _ _ _ _ HS) as [-> | ->]; reflexivity). rewrite HM in H.
  cbn [fst snd obind] in H. injection H as <-. cbv zeta. f_equal.
  unfold owrite. rewrite Ho. cbn [o_ok o_bytes]. f_equal. rewrite <- app_assoc. f_equal. unfold block. f_equal.
  apply ztake_all. lia.
Qed.

(** Many writes. *)
Fixpoint put_all (c : codec) (w : writer) (items : list (bytes * bytes)) : outcome writer :=
  match items with
  | [] => Ok w
  | (n, b) :: r => let* w' := w_write_file c w n b in put_all c w' r
  end.

Lemma owrite_ok o b : o_ok (owrite o b) = o_ok o.
Proof. unfold owrite. destruct (o_ok o) eqn:E; [reflexivity|exact E]. Qed.
Lemma owrite_prefix o b : exists t, o_bytes (owrite o b) = o_bytes o ++ t.
Proof. unfold owrite. destruct (o_ok o); [eexists; reflexivity|exists []; now rewrite app_nil_r]. Qed.
Lemma w_write_file_grows c w n b w' : w_write_file c w n b = Ok w' ->
  (exists t, o_bytes (w_out w') = o_bytes (w_out w) ++ t) /\ w_method w' = w_method w /\ w_endian w' = w_endian w /\
  w_closed w' = false /\ w_closed w = false /\ o_ok (w_out w') = o_ok (w_out w).
Proof.
  unfold w_write_file, w_write_file_on; fold write_file. destruct (w_closed w) eqn:E; [discriminate|].
  destruct (write_file c (w_out w) (w_entries w) n (w_method w) b) as [[o es]|?| |?] eqn:EW; try discriminate.
  cbn [obind fst snd]. intros [= <-]. cbn [w_out w_method w_endian w_closed].
  unfold write_file, write_file_on in EW.
  match type of EW with obind ?x _ = _ => destruct x as [cb|?| |?]; try discriminate end. cbn [obind] in EW.
  injection EW as <- _. split.
  - match goal with |- exists t, o_bytes (owrite (owrite ?o ?a) ?b) = _ =>
      destruct (owrite_prefix o a) as [t1 H1]; destruct (owrite_prefix (owrite o a) b) as [t2 H2] end.
    exists (t1 ++ t2). now rewrite H2, H1, app_assoc.
  - rewrite !owrite_ok. auto.
Qed.
Lemma put_all_grows c items : forall w w', put_all c w items = Ok w' ->
  len (o_bytes (w_out w)) <= len (o_bytes (w_out w')).
Proof.
  induction items as [|[n b] r IH]; intros w w' H; cbn [put_all] in H.
  - injection H as <-. lia.
  - destruct (w_write_file c w n b) as [w1|?| |?] eqn:E; try discriminate. cbn [obind] in H.
    apply IH in H. apply w_write_file_grows in E as ((t & E) & _).
    rewrite E, len_app in H. pose proof (len_nonneg _ t). lia.
Qed.

Definition item_ok (c : codec) (p : bytes * bytes) : Prop :=
  bytes_ok (snd p) /\ len (snd p) < 2 ^ 32 /\ len (fst p) < 65536 /\
  forall cb, c_deflate c (snd p) = Ok cb -> len cb < 2 ^ 32.

Lemma put_all_laid c items : forall w w', w_closed w = false -> o_ok (w_out w) = true ->
  Forall (item_ok c) items -> put_all c w items = Ok w' -> len (o_bytes (w_out w')) < 2 ^ 32 ->
  exists ps, laid c (w_method w) (len (o_bytes (w_out w))) items ps /\
    w' = mk_writer false (mk_ostream (o_bytes (w_out w) ++ blocks ps) true) (w_method w) (w_endian w) (w_entries w ++ dir ps).
Proof.
  induction items as [|[n b] r IH]; intros w w' Hc Ho HI H HL; cbn [put_all] in H.
  - injection H as <-. exists []. split; [constructor|]. cbn [blocks dir map flat_map]. rewrite !app_nil_r.
    destruct w as [cl [ob ok] m e es]. cbn in *. now subst.
  - destruct (w_write_file c w n b) as [w1|?| |?] eqn:E; try discriminate. cbn [obind] in H.
    inversion HI as [|? ? (B1 & B2 & B3 & B4) HI']; subst. cbn [fst snd] in *.
    pose proof (put_all_grows _ _ _ _ H) as HG.
    destruct (w_write_file_grows _ _ _ _ _ E) as ((t & HT) & _).
    pose proof (len_nonneg _ t) as Ht. rewrite HT, len_app in HG.
    destruct (w_write_file_ok c w n b w1 Hc Ho ltac:(lia) B2 B4 E) as (cb & HS & HL2 & ->). cbv zeta in H, HT.
    set (e := entry_for (w_method w) n b cb (len (o_bytes (w_out w)))) in *.
    edestruct IH as (ps & HP & HW); [| |exact HI'|exact H|exact HL|]; [reflexivity|reflexivity|]. cbn [w_method w_out o_bytes w_endian w_entries] in *.
    exists ((e, (b, cb)) :: ps). split.
    + unfold e. apply laid_cons; auto; [pose proof (len_nonneg _ (o_bytes (w_out w))); lia|]. fold e.
      now rewrite len_app in HP.
    + rewrite HW. cbn [blocks dir map flat_map fst snd]. now rewrite <- !app_assoc.
Qed.

(** Facts about placements. *)
Lemma laid_ok c m off items ps : laid c m off items ps -> Forall entry_ok (dir ps).
Proof.
  induction 1; [constructor|]. cbn [dir map fst]. constructor; [|exact IHlaid].
  apply entry_for_ok; auto. eapply stored_method; eauto.
Qed.
Lemma laid_names c m off items ps : laid c m off items ps -> map f_name (dir ps) = map fst items.
Proof. induction 1; [reflexivity|]. cbn [dir map fst entry_for f_name]. f_equal. exact IHlaid. Qed.
Lemma laid_in c m off items ps : laid c m off items ps -> forall e b cb, In (e, (b, cb)) ps ->
  exists pre post, blocks ps = pre ++ block e cb ++ post /\ f_offset e = off + len pre /\
    stored_as c m b cb /\ f_crc e = npy_crc32 b /\ f_csize e = len cb /\ f_usize e = len b /\ f_method e = m /\ entry_ok e /\
    0 <= len cb < 2 ^ 32 /\ bytes_ok b.
Proof.
  induction 1 as [|off n b0 cb0 r ps HS HB H1 H2 H3 H4 HL IH]; intros e b cb HI; [destruct HI|].
  destruct HI as [[= <- <- <-]|HI].
  - exists [], (blocks ps). split; [reflexivity|]. cbn [len length entry_for f_offset f_crc f_csize f_usize f_method].
    assert (entry_ok (entry_for m n b0 cb0 off)) as HO by (apply entry_for_ok; auto; eapply stored_method; eauto).
    change (len (@nil Z)) with 0. pose proof (len_nonneg _ cb0). repeat split; auto; try lia; apply HO.
  - destruct (IH e b cb HI) as (pre & post & E1 & E2 & E3). 
    exists (block (entry_for m n b0 cb0 off) cb0 ++ pre), post. split; [|split; [|exact E3]].
    + cbn [blocks flat_map fst snd]. unfold blocks in E1. rewrite E1. now rewrite <- !app_assoc.
    + rewrite E2, len_app. lia.
Qed.

(** Bound on the directory. *)
Definition archive_of (ps : list placement) : bytes :=
  let cds := flat_map write_cd_header (dir ps) in
  blocks ps ++ cds ++ write_eocd (len ps mod 65536) (len cds) (len (blocks ps)).
(** The same directory after other (possibly damaged) bytes of the same length. *)
Definition archive_with (data : bytes) (ps : list placement) : bytes :=
  let cds := flat_map write_cd_header (dir ps) in
  data ++ cds ++ write_eocd (len ps mod 65536) (len cds) (len data).

Lemma close_layout ps m e :
  let w := mk_writer false (mk_ostream (blocks ps) true) m e (dir ps) in
  len (w_str (w_close w)) < 2 ^ 32 -> w_str (w_close w) = archive_of ps.
Proof.
  intros w HL. unfold w_str, w_close, w_close_on in *; fold close_archive in *. cbn [w_closed w w_out w_entries o_bytes] in *.
  unfold close_archive, close_archive_on, owrite, otellp in *. cbn [o_ok o_bytes] in *.
  rewrite !len_app in HL. rewrite len_app. rewrite <- app_assoc.
  set (cds := flat_map write_cd_header (dir ps)) in *.
  pose proof (len_nonneg _ (blocks ps)). pose proof (len_nonneg _ cds). rewrite len_eocd in HL.
  unfold archive_of. fold cds. do 2 f_equal. f_equal.
  - unfold dir. rewrite len_map. reflexivity.
  - unfold u32. rewrite !(Z.mod_small (len (blocks ps))), (Z.mod_small (_ + _)) by lia. rewrite Z.mod_small; lia.
  - unfold u32. apply Z.mod_small. lia.
Qed.
Lemma close_grows w : w_closed w = false -> len (o_bytes (w_out w)) <= len (w_str (w_close w)).
Proof.
  intros H. unfold w_close, w_close_on, w_str; fold close_archive. rewrite H. cbn [w_out]. unfold close_archive, close_archive_on.
  match goal with |- context [owrite (owrite ?o ?a) ?b] =>
    destruct (owrite_prefix o a) as [t1 H1]; destruct (owrite_prefix (owrite o a) b) as [t2 H2] end.
  rewrite H2, H1, !len_app. pose proof (len_nonneg _ t1). pose proof (len_nonneg _ t2). lia.
Qed.

(** Opening. *)
Definition directory_map (es : list file_entry) : emap := rev (map (fun e => (f_name e, e)) es).
Lemma seek_ok s p : failb s = false -> 0 <= p <= len (whole s) ->
  sseek_abs p s = mk_istream (whole s) (zdrop p (whole s)) false false (is_file s).
Proof.
  intros F H. unfold sseek_abs. rewrite F.
  assert ((p <? 0) || negb (is_file s) && (p >? len (whole s)) = false) as ->.
  { apply orb_false_iff. split; [lia|]. apply andb_false_iff. right. lia. }
  reflexivity.
Qed.
Lemma open_archive data ps s : Forall entry_ok (dir ps) -> len (archive_with data ps) < 2 ^ 32 ->
  failb s = false -> whole s = archive_with data ps ->
  exists r, open_reader s = Ok r /\
    (let es := firstn (Z.to_nat (len ps mod 65536)) (dir ps) in
     r_entries r = directory_map es /\ r_keys r = sort_keys (map f_name es)) /\
    failb (r_in r) = false /\ whole (r_in r) = archive_with data ps /\ is_file (r_in r) = is_file s.
Proof.
  intros HO HL F HW. unfold archive_with in HL. rewrite !len_app, len_eocd in HL.
  set (cds := flat_map write_cd_header (dir ps)) in *.
  pose proof (len_nonneg _ data) as HB0. pose proof (len_nonneg _ cds) as HC0. pose proof (Z.mod_pos_bound (len ps) 65536 ltac:(lia)) as HP0.
  set (N := len ps mod 65536) in *. set (es := firstn (Z.to_nat N) (dir ps)).
  unfold open_reader, read_entries. unfold bind at 1. unfold sseek_end.
  assert (len (whole s) = len data + len cds + 22) as HWL.
  { rewrite HW. unfold archive_with. rewrite !len_app, len_eocd. fold cds. lia. }
  rewrite (seek_ok s) by (unfold CD_END_SIZE; lia || exact F).
  set (s1 := mk_istream (whole s) _ false false (is_file s)).
  assert (rest s1 = write_eocd (len ps mod 65536) (len cds) (len data) ++ []) as HR1.
  { unfold s1. cbn [rest]. rewrite app_nil_r, HWL, HW. unfold archive_with. fold cds. rewrite app_assoc.
    apply zdrop_app_exact. rewrite len_app. unfold CD_END_SIZE. lia. }
  destruct (reads_eocd (len ps mod 65536) (len cds) (len data) ltac:(lia) ltac:(lia) ltac:(lia) s1 [] eq_refl HR1)
    as (s2 & HE & G2 & W2 & F2).
  unfold bind at 1. rewrite HE. cbv iota. unfold bind at 1.
  assert (failb s2 = false) as FB2 by (unfold good in G2; apply andb_true_iff in G2 as [_ G2]; now apply negb_true_iff in G2).
  assert (whole s2 = whole s) as W2' by exact W2.
  rewrite (seek_ok s2 (len data) FB2) by (rewrite W2', HWL; lia).
  set (s3 := mk_istream (whole s2) _ false false (is_file s2)).
  assert (rest s3 = cds ++ write_eocd (len ps mod 65536) (len cds) (len data)) as HR3.
  { unfold s3. cbn [rest]. rewrite W2', HW. unfold archive_with. fold cds. now apply zdrop_app_exact. }
  assert (Z.to_nat N = length es) as HNat.
  { unfold es, dir. rewrite firstn_length, map_length. symmetry. apply Nat.min_l.
    pose proof (Z.mod_le (len ps) 65536 (len_nonneg _ ps) ltac:(lia)). fold N in H. unfold len in H. clearbody N. apply Nat2Z.inj_le. rewrite Z2Nat.id by lia. exact H. }
  assert (Forall entry_ok es) as HOs.
  { unfold es. apply Forall_forall. intros x Hx. eapply Forall_forall; [exact HO|].
    rewrite <- (firstn_skipn (Z.to_nat N) (dir ps)). apply in_or_app. now left. }
  assert (cds = flat_map write_cd_header es ++ flat_map write_cd_header (skipn (Z.to_nat N) (dir ps))) as HCd.
  { unfold cds, es. rewrite <- flat_map_app, firstn_skipn. reflexivity. }
  rewrite HCd, <- app_assoc in HR3. fold N.
  unfold bind. rewrite HNat. rewrite (reads_cd_loop es [] [] HOs s3 _ eq_refl HR3).
  unfold ret. eexists. split; [reflexivity|]. cbn [r_entries r_keys r_in fst snd]. rewrite app_nil_r.
  split; [split; reflexivity|]. split; [reflexivity|]. split; [unfold s3; cbn [set_rest whole]; congruence|].
  exact F2.
Qed.
Lemma archive_with_blocks ps : archive_with (blocks ps) ps = archive_of ps. Proof. reflexivity. Qed.

(** Reading one entry. *)
Lemma entry_check_refl e : entry_check e (forget_offset e) = true.
Proof. unfold entry_check, forget_offset. cbn [f_name f_crc f_csize f_usize f_method]. now rewrite beq_refl, !Z.eqb_refl. Qed.
(** The bytes [cb'] stand where the entry's data should be. *)
Lemma read_at v c mp name e pre z cb' tail s :
  find_entry mp name = Some e -> entry_ok e -> f_csize e = len cb' ->
  f_offset e = len pre -> failb s = false -> whole s = pre ++ write_local_header e z ++ cb' ++ tail ->
  exists s', failb s' = false /\ whole s' = whole s /\ read_file v c mp name s =
    (if len cb' >? mem v then Throw AllocError else
     match (if f_method e =? DEFLATED then c_inflate c cb' else Ok cb') with
     | Ok b => if npy_crc32 b =? f_crc e then Ok b else Throw RuntimeError
     | Throw x => Throw x | AssertFail => AssertFail | Undef u => Undef u end, s').
Proof.
  intros HF EO E4 E2 F HW.
  unfold read_file. rewrite HF. unfold bind at 1.
  assert (0 <= f_offset e < 2 ^ 32) as HOf by apply EO.
  pose proof (len_nonneg _ pre) as Hpre.
  assert (s64 (f_offset e) = f_offset e) as -> by (unfold s64; destruct (_ <? _) eqn:E; [reflexivity|lia]).
  pose proof (len_nonneg _ (write_local_header e z)). pose proof (len_nonneg _ tail). pose proof (len_nonneg _ cb').
  rewrite (seek_ok s) by (try exact F; rewrite HW, !len_app; lia).
  set (s1 := mk_istream (whole s) _ false false (is_file s)).
  assert (rest s1 = write_local_header e z ++ cb' ++ tail) as HR1.
  { unfold s1. cbn [rest]. rewrite HW. apply zdrop_app_exact. lia. }
  unfold bind at 1. rewrite (reads_local e _ EO s1 _ eq_refl HR1).
  rewrite entry_check_refl. cbn [negb]. rewrite E4. destruct (len cb' >? mem v) eqn:EM.
  { eexists. split; [|split; [|reflexivity]]; reflexivity. }
  unfold bind at 1.
  rewrite (reads_name cb' (set_rest s1 (cb' ++ tail)) tail eq_refl eq_refl).
  set (s2 := set_rest (set_rest s1 (cb' ++ tail)) tail).
  exists s2. split; [reflexivity|]. split; [reflexivity|].
  destruct (f_method e =? DEFLATED).
  - unfold bind, lift. destruct (c_inflate c cb') as [b| | |]; try reflexivity. destruct (npy_crc32 b =? f_crc e); reflexivity.
  - unfold bind, ret. destruct (npy_crc32 cb' =? f_crc e); reflexivity.
Qed.
Lemma read_placed v c m items ps mp name e b cb s :
  laid c m 0 items ps -> In (e, (b, cb)) ps -> find_entry mp name = Some e ->
  (m = DEFLATED -> c_inflate c cb = Ok b) -> len cb <= mem v ->
  failb s = false -> whole s = archive_of ps ->
  exists s', read_file v c mp name s = (Ok b, s') /\ failb s' = false /\ whole s' = whole s.
Proof.
  intros HLd HI HF HC HM F HW.
  destruct (laid_in _ _ _ _ _ HLd _ _ _ HI) as (pre & post & E1 & E2 & ES & E3 & E4 & E5 & E6 & EO & HCB & HBO).
  destruct (read_at v c mp name e pre ((f_usize e >? ZIP64_LIMIT) || (f_csize e >? ZIP64_LIMIT)) cb
    (post ++ flat_map write_cd_header (dir ps) ++ write_eocd (len ps mod 65536) (len (flat_map write_cd_header (dir ps))) (len (blocks ps))) s)
    as (s' & F' & W' & HR); auto.
  { rewrite HW. unfold archive_of. rewrite E1. unfold block. now rewrite <- !app_assoc. }
  exists s'. split; [|auto]. rewrite HR. f_equal. destruct (len cb >? mem v) eqn:EM; [lia|].
  rewrite E6, E3. destruct ES as [[-> ->]|[-> HD]].
  - cbn [Z.eqb STORED DEFLATED]. now rewrite Z.eqb_refl.
  - rewrite Z.eqb_refl. rewrite HC by reflexivity. now rewrite Z.eqb_refl.
Qed.

(** Lookups in the map built from the directory. *)
Lemma efind_app a b k : efind (a ++ b) k = match efind a k with Some e => Some e | None => efind b k end.
Proof. induction a as [|[n e] a IH]; [reflexivity|]. cbn [app efind]. destruct (beq k n); auto. Qed.
Lemma beq_sym a b : beq a b = beq b a.
Proof. destruct (beq a b) eqn:E1, (beq b a) eqn:E2; auto; [apply beq_eq in E1; subst; now rewrite beq_refl in E2|apply beq_eq in E2; subst; now rewrite beq_refl in E1]. Qed.
Lemma efind_last l k : efind (rev l) k = last_filed l k.
Proof.
  induction l as [|[n e] l IH]; [reflexivity|]. cbn [rev last_filed]. rewrite efind_app, IH.
  destruct (last_filed l k); [reflexivity|]. cbn [efind]. rewrite (beq_sym k n). reflexivity.
Qed.
Lemma last_filed_map {X Y} (f : X -> Y) l k : last_filed (map (fun p => (fst p, f (snd p))) l) k = option_map f (last_filed l k).
Proof.
  induction l as [|[n x] l IH]; [reflexivity|]. cbn [map last_filed fst snd]. rewrite IH.
  destruct (last_filed l k); [reflexivity|]. cbn [option_map]. destruct (beq n k); reflexivity.
Qed.
Lemma laid_last c m off items ps : laid c m off items ps -> forall k,
  match efind (directory_map (dir ps)) k with
  | Some e => exists b cb, In (e, (b, cb)) ps /\ last_filed items k = Some b /\ f_name e = k
  | None => last_filed items k = None
  end.
Proof.
  intros H k. unfold directory_map. rewrite efind_last.
  induction H as [|off n b cb r ps HS HB H1 H2 H3 H4 HL IH]; [reflexivity|].
  cbn [dir map last_filed fst entry_for f_name] in *. unfold dir in IH.
  destruct (last_filed (map (fun e => (f_name e, e)) (map fst ps)) k) as [e|].
  - destruct IH as (b' & cb' & HI & HF & HN). exists b', cb'. split; [now right|]. split; [now rewrite HF|exact HN].
  - rewrite IH. destruct (beq n k) eqn:E; [|reflexivity]. exists b, cb. split; [now left|]. split; [reflexivity|].
    cbn. now apply beq_eq.
Qed.

(** ** Readers of an archive *)
Definition serving (ps : list placement) (r : reader) : Prop :=
  r_entries r = directory_map (dir ps) /\ failb (r_in r) = false /\ whole (r_in r) = archive_of ps.
Lemma open_serving ps s : Forall entry_ok (dir ps) -> len ps < 65536 -> len (archive_of ps) < 2 ^ 32 ->
  failb s = false -> whole s = archive_of ps ->
  exists r, open_reader s = Ok r /\ serving ps r /\ r_keys r = sort_keys (map f_name (dir ps)).
Proof.
  intros HO HN HL F HW.
  destruct (open_archive (blocks ps) ps s HO HL F HW) as (r & HR & (E1 & E2) & F' & W' & _).
  exists r. split; [exact HR|].
  assert (firstn (Z.to_nat (len ps mod 65536)) (dir ps) = dir ps) as HA.
  { rewrite Z.mod_small by (split; [apply len_nonneg|exact HN]). unfold len. rewrite Nat2Z.id.
    apply firstn_all2. unfold dir. rewrite map_length. apply le_n. }
  cbv zeta in E1, E2. rewrite HA in E1, E2. unfold serving. auto.
Qed.
(** What an entry's raw data decodes to. *)
Definition lookup_items (items : list (bytes * bytes)) (n : bytes) : option bytes :=
  match last_filed items n with Some b => Some b | None => last_filed items (n ++ str ".npy") end.
Lemma find_items c m items ps n : laid c m 0 items ps ->
  match find_entry (directory_map (dir ps)) n with
  | Some e => exists b cb, In (e, (b, cb)) ps /\ lookup_items items n = Some b
  | None => lookup_items items n = None
  end.
Proof.
  intros HL. unfold find_entry, lookup_items.
  pose proof (laid_last _ _ _ _ _ HL n) as H1. pose proof (laid_last _ _ _ _ _ HL (n ++ str ".npy")) as H2.
  destruct (efind (directory_map (dir ps)) n) as [e|].
  - destruct H1 as (b & cb & HI & HF & _). exists b, cb. split; [exact HI|]. now rewrite HF.
  - rewrite H1. destruct (efind (directory_map (dir ps)) (n ++ str ".npy")) as [e|]; [|exact H2].
    destruct H2 as (b & cb & HI & HF & _). exists b, cb. auto.
Qed.
Lemma placed_content c m off items ps : laid c m off items ps -> forall e b cb, In (e, (b, cb)) ps -> exists n, In (n, b) items.
Proof.
  induction 1 as [|off n b cb r ps HS HB H1 H2 H3 H4 HL IH]; intros e b0 cb0 HI; [destruct HI|].
  destruct HI as [[= <- <- <-]|HI]; [exists n; now left|].
  destruct (IH _ _ _ HI) as [n' Hn]. exists n'. now right.
Qed.
Lemma serving_step v c m items ps r n : laid c m 0 items ps -> serving ps r ->
  serving ps (snd (r_read_file v c r n)) /\ r_keys (snd (r_read_file v c r n)) = r_keys r.
Proof.
  intros HL (E & F & W). unfold r_read_file. pose proof (find_items c m items ps n HL) as HF. rewrite E.
  destruct (find_entry (directory_map (dir ps)) n) as [e|] eqn:EF.
  - destruct HF as (b & cb & HI & _).
    destruct (laid_in _ _ _ _ _ HL _ _ _ HI) as (pre & post & E1 & E2 & ES & E3 & E4 & E5 & E6 & EO & HCB & HBO).
    destruct (read_at v c (directory_map (dir ps)) n e pre ((f_usize e >? ZIP64_LIMIT) || (f_csize e >? ZIP64_LIMIT)) cb
      (post ++ flat_map write_cd_header (dir ps) ++ write_eocd (len ps mod 65536) (len (flat_map write_cd_header (dir ps))) (len (blocks ps))) (r_in r))
      as (s' & F' & W' & HR); auto.
    { rewrite W. unfold archive_of. rewrite E1. unfold block. now rewrite <- !app_assoc. }
    rewrite HR. cbn [snd]. split; [|reflexivity]. split; [reflexivity|]. cbn [r_in]. split; [exact F'|congruence].
  - unfold read_file. rewrite EF. unfold lift. cbn [snd]. split; [split; auto|reflexivity].
Qed.
Lemma serving_read v c m items ps r n : laid c m 0 items ps -> serving ps r ->
  (forall b cb, (exists k, In (k, b) items) -> stored_as c m b cb -> len cb <= mem v /\ (m = DEFLATED -> c_inflate c cb = Ok b)) ->
  match lookup_items items n with
  | Some b => exists r', r_read_file v c r n = (Ok b, r')
  | None => r_read_file v c r n = (Throw InvalidArgument, r)
  end.
Proof.
  intros HL (E & F & W) HC. unfold r_read_file. pose proof (find_items c m items ps n HL) as HF. rewrite E.
  destruct (find_entry (directory_map (dir ps)) n) as [e|] eqn:EF.
  - destruct HF as (b & cb & HI & ->).
    pose proof (laid_in _ _ _ _ _ HL _ _ _ HI) as (_ & _ & _ & _ & ES & _).
    destruct (HC b cb (placed_content _ _ _ _ _ HL _ _ _ HI) ES) as [HM HInf].
    destruct (read_placed v c m items ps (directory_map (dir ps)) n e b cb (r_in r) HL HI EF HInf HM F W) as (s' & HR & _).
    rewrite HR. eexists. reflexivity.
  - rewrite HF. unfold read_file. rewrite EF. unfold lift. rewrite <- E. now destruct r.
Qed.
Lemma laid_len c m off items ps : laid c m off items ps -> len ps = len items.
Proof. induction 1; [reflexivity|]. unfold len in *. cbn [length]. rewrite !Nat2Z.inj_succ. f_equal. exact IHlaid. Qed.

(** Writing, closing and opening. *)
Lemma write_open c m e items w s : Forall (item_ok c) items -> len items < 65536 ->
  put_all c (new_writer m e) items = Ok w -> len (w_str (w_close w)) < 2 ^ 32 ->
  failb s = false -> whole s = w_str (w_close w) ->
  exists r ps, laid c m 0 items ps /\ w_str (w_close w) = archive_of ps /\ open_reader s = Ok r /\ serving ps r /\ r_keys r = sort_keys (map fst items).
Proof.
  intros HI HN HP HL F HW.
  assert (w_closed w = false) as Hcl.
  { destruct items as [|[n b] rr]; [injection HP as <-; reflexivity|].
    assert (forall l w0 w1, w_closed w0 = false -> put_all c w0 l = Ok w1 -> w_closed w1 = false) as HG.
    { induction l as [|[n0 b0] l IH]; intros w0 w1 H0 H1; cbn [put_all] in H1; [injection H1 as <-; exact H0|].
      destruct (w_write_file c w0 n0 b0) as [w2|?| |?] eqn:E; try discriminate. cbn [obind] in H1.
      eapply IH; [|exact H1]. now apply w_write_file_grows in E. }
    eapply HG; [|exact HP]. reflexivity. }
  destruct (put_all_laid c items (new_writer m e) w eq_refl eq_refl HI HP) as (ps & HPs & HWs).
  { pose proof (close_grows w Hcl). lia. }
  cbn [new_writer w_method w_endian w_entries w_out o_bytes app] in HPs, HWs. change (len (@nil Z)) with 0 in HPs.
  rewrite HWs in HL, HW. pose proof (close_layout ps m e HL) as HCl.
  rewrite HCl in HW, HL.
  destruct (open_serving ps s (laid_ok _ _ _ _ _ HPs)) as (r & HR & HS & HK); auto.
  { now rewrite (laid_len _ _ _ _ _ HPs). }
  exists r, ps. split; [exact HPs|]. split; [now rewrite HWs|]. split; [exact HR|]. split; [exact HS|]. rewrite HK. f_equal. eapply laid_names; eauto.
Qed.
Lemma put_all_ok c m items : m = STORED \/ (m = DEFLATED /\ Forall (fun p => exists cb, c_deflate c (snd p) = Ok cb) items) ->
  forall w, w_closed w = false -> w_method w = m -> exists w', put_all c w items = Ok w'.
Proof.
  intros Hm. induction items as [|[n b] l IH]; intros w H0 H1; [eexists; reflexivity|]. cbn [put_all].
  assert (exists w1, w_write_file c w n b = Ok w1) as (w1 & E).
  { unfold w_write_file, w_write_file_on; fold write_file. rewrite H0. unfold write_file, write_file_on. rewrite H1. destruct Hm as [-> |[-> HD]].
    - change (STORED =? STORED) with true. cbv iota. cbn [obind]. eexists; reflexivity.
    - change (DEFLATED =? STORED) with false. change (DEFLATED =? DEFLATED) with true. cbv iota.
      inversion HD as [|? ? [cb Hcb] ?]; subst. cbn [snd] in Hcb. rewrite Hcb. cbn [obind]. eexists; reflexivity. }
  rewrite E. cbn [obind]. apply w_write_file_grows in E as (_ & E1 & _ & E2 & _).
  apply IH; [|exact E2|congruence]. destruct Hm as [->|[-> HD]]; [now left|]. right. split; [reflexivity|]. now inversion HD.
Qed.
