(** Facts for C73: the archives of a program. *)
From Coq Require Import String ZArith List Bool Lia.
From Verif Require Import Base Stream BaseFacts Dtype Values Spec ValuesFacts PropValues Header HeaderFacts ParseFacts ParserInv
  NpyFacts Tensor Npy TensorFacts PropTensor SaveFacts PropNpy TensorVars PropVars Views PropViews CutFacts PropCut Files PropFiles
  Crc Npz NpzFacts ArchiveFacts PropNpz PropZip ZipFiles PropDisk Arr Tinfl Tdefl DeflTop PropCompress Program ProgramSpec ProgFacts.
Import ListNotations.
Open Scope Z_scope.

(** Members of an archive being written: what the program wrote, and the tensors. *)
Definition member (v : env) (m : Z) (e : endian) (p : bytes * array) (q : bytes * tensor) : Prop :=
  fst q = fst p /\ is_array (snd q) (snd p) /\ recordable (host_big v) e (snd p) /\ len (fst p) <= 65531 /\
  file_size (host_big v) e (snd p) < 2 ^ 32 /\ len (file_of v e (snd q)) <= 3 * 2 ^ 30 /\
  (m = DEFLATED -> survives (file_size (host_big v) e (snd p))).
Lemma npy_name_len n : len (npy_name n) <= len n + 4.
Proof.
  unfold npy_name. destruct (beq _ _); [lia|]. rewrite len_app. change (len (str ".npy")) with 4. lia.
Qed.
Lemma member_storable v m e p q : member v m e p q -> storable v e q.
Proof.
  intros (E & HA & _ & HN & HF & _). split; [apply HA|]. split; [pose proof (npy_name_len (fst q)); rewrite E in *; lia|].
  intros b Hb. rewrite file_of_save in Hb. injection Hb as <-. rewrite (file_size_len _ _ _ _ HA). exact HF.
Qed.
Lemma member_packs v c m e p q : libnpy_codec v c -> member v m e p q -> packs c m v e q.
Proof.
  intros (_ & _ & HC) (_ & HA & _ & _ & _ & HF & _) b Hb. left. destruct (HC b) as (dict & next & buf & HH & E).
  assert (bytes_ok b) as HB by (eapply save_ok; [apply HA|exact Hb]).
  destruct (npy_deflate_ok v dict next buf b HH HB) as (z & E' & _ & L). exists z. split; [congruence|].
  rewrite file_of_save in Hb. injection Hb as <-. change (2 ^ 30) with 1073741824 in HF. change (2 ^ 32) with 4294967296. destruct L as [L _]. lia.
Qed.
Lemma member_unpacks v c m e p q : libnpy_codec v c -> m = STORED \/ m = DEFLATED -> 2 ^ 32 <= mem v ->
  member v m e p q -> unpacks c m v e v q.
Proof.
  intros (HV & HI & HC) [->| ->] HM HMb b cb Hb Hc; [now right|]. left. pose proof (member_packs v c DEFLATED e p q (conj HV (conj HI HC)) HMb b Hb) as HP.
  destruct HP as [(z & Hz & HL)|HP]; [|discriminate]. assert (z = cb) as -> by congruence. split; [|lia].
  destruct HMb as (_ & HA & _ & _ & _ & _ & HS). specialize (HS eq_refl). rewrite <- (file_size_len _ _ _ _ HA) in HS.
  rewrite file_of_save in Hb. injection Hb as <-. rewrite HI.
  destruct (HC (file_of v e (snd q))) as (dict & next & buf & HH & E). rewrite Hc in E.
  assert (bytes_ok (file_of v e (snd q))) as HB by (eapply save_ok; [apply HA|apply file_of_save]).
  destruct (C49_round_trip v dict next buf _ HV HH HB) as (z & Ez & H1 & H2 & _). assert (z = cb) as -> by congruence.
  destruct HS as [HS|[HS1 HS2]]; auto.
Qed.

(** ** How long an archive is *)
Lemma len_w16 x : len (write16 x) = 2. Proof. reflexivity. Qed.
Lemma len_w32 x : len (write32 x) = 4. Proof. apply len_write32. Qed.
Lemma len_w32u x : len (write32u x) = 4. Proof. reflexivity. Qed.
Lemma len_w64u x : len (write64u x) = 8. Proof. reflexivity. Qed.
Lemma extra_len h o : len (write_zip64_extra h o) <= 28.
Proof.
  unfold write_zip64_extra. rewrite !len_app, !len_w16.
  destruct (f_usize h >? ZIP64_LIMIT), (f_csize h >? ZIP64_LIMIT), (o && _); cbn [app flat_map]; rewrite ?len_app, ?len_w64u; change (@len Z []) with 0; lia.
Qed.
Lemma shared_len h : len (write_shared_header h) = 22.
Proof. unfold write_shared_header. rewrite !len_app, !len_write32, !len_write16, len_write32u. reflexivity. Qed.
Lemma local_len h z : len (write_local_header h z) <= 60 + len (f_name h).
Proof.
  unfold write_local_header. rewrite !len_app, shared_len, !len_w16. change (len LOCAL_HEADER_SIG) with 4.
  destruct (_ >? 0); [pose proof (extra_len h false)|change (@len Z []) with 0]; lia.
Qed.
Lemma cd_len h : len (write_cd_header h) <= 80 + len (f_name h).
Proof.
  unfold write_cd_header. rewrite !len_app, shared_len, !len_w16, len_w32. change (len CD_HEADER_SIG) with 4. change (len EXTERNAL_ATTR) with 4.
  destruct (_ >? 0); [pose proof (extra_len h true)|change (@len Z []) with 0]; lia.
Qed.
Lemma eocd_len a b c : len (write_eocd a b c) = 22.
Proof. unfold write_eocd. rewrite !len_app. reflexivity. Qed.
(** What the archive would have if it were closed now. *)
Definition extent (w : writer) : Z := len (w_str w) + len (flat_map write_cd_header (w_entries w)) + 22.
Lemma extent_close w : w_closed w = false -> o_ok (w_out w) = true -> len (w_str (w_close w)) = extent w.
Proof.
  intros HC HO. unfold w_close, w_close_on. rewrite HC. unfold w_str, extent, close_archive_on, owrite. cbn [w_out].
  rewrite HO. cbn [o_ok o_bytes]. rewrite !len_app, eocd_len. unfold w_str. lia.
Qed.
Lemma extent_write v c m e p q w : libnpy_codec v c -> m = STORED \/ m = DEFLATED -> member v m e p q ->
  w_closed w = false -> o_ok (w_out w) = true -> w_method w = m -> w_endian w = e ->
  exists w', w_write v c w (fst q) (snd q) = Ok w' /\ extent w' <= extent w + cost (host_big v) e p /\
    w_closed w' = false /\ o_ok (w_out w') = true /\ w_method w' = m /\ w_endian w' = e /\ w_entries w' <> [] /\
    len (w_entries w') = len (w_entries w) + 1.
Proof.
  intros HC Hm HMb HCl HO HM HE. unfold w_write, w_write_on. rewrite HCl, HE, file_of_save. cbn [obind].
  unfold w_write_file_on. rewrite HCl, HM. set (b := file_of v e (snd q)) in *.
  assert (exists cb, (if m =? STORED then Ok b else if m =? DEFLATED then c_deflate c b else Throw InvalidArgument) = Ok cb /\
    len cb <= 2 * len b + 580) as (cb & Ecb & Lcb).
  { pose proof (len_nonneg _ b). destruct Hm as [->| ->]; [exists b; split; [reflexivity|lia]|].
    destruct HC as (_ & _ & HC). destruct (HC b) as (dict & next & buf & HH & E).
    assert (bytes_ok b) as HB by (eapply save_ok; [apply HMb|apply file_of_save]).
    destruct (npy_deflate_ok v dict next buf b HH HB) as (z & E' & _ & L & _). exists z. split; [cbn; congruence|lia]. }
  unfold write_file_on. rewrite Ecb. cbn [obind fst snd]. eexists. split; [reflexivity|].
  set (en := mk_entry _ _ _ _ _ _). unfold extent, w_str. cbn [w_out w_entries w_closed w_method w_endian].
  unfold owrite. rewrite HO. cbn [o_ok o_bytes].
  assert (len (f_name en) <= len (fst p) + 4) as HN.
  { cbn [en f_name]. rewrite archive_name_npy. destruct HMb as (-> & _). apply npy_name_len. }
  split.
  - rewrite flat_map_app. cbn [flat_map]. rewrite app_nil_r, !len_app. 
    pose proof (local_len en ((u32 (len b) >? ZIP64_LIMIT) || ((if m =? STORED then u32 (len b) else u32 (len cb)) >? ZIP64_LIMIT))).
    pose proof (cd_len en). rewrite len_ztake. pose proof (len_nonneg _ cb).
    unfold cost. rewrite <- (file_size_len v e (snd q) (snd p)) by apply HMb. fold b. lia.
  - split; [reflexivity|]. split; [reflexivity|]. split; [reflexivity|]. split; [exact HE|]. split.
    + destruct (w_entries w); discriminate.
    + rewrite len_app. reflexivity.
Qed.
Lemma write_all_app v c a : forall b w w', PropNpz.write_all v c w a = Ok w' ->
  PropNpz.write_all v c w (a ++ b) = PropNpz.write_all v c w' b.
Proof.
  induction a as [|[n t] a IH]; intros b w w' H; cbn [PropNpz.write_all app] in *; [now injection H as <-|].
  destruct (w_write v c w n t) as [w1|?| |?]; cbn [obind] in *; try discriminate. now apply IH.
Qed.
(** The bounds hold of every writer in use. *)
Lemma written v c m e items ts : libnpy_codec v c -> m = STORED \/ m = DEFLATED -> Forall2 (member v m e) items ts ->
  forall w, w_closed w = false -> o_ok (w_out w) = true -> w_method w = m -> w_endian w = e ->
  exists w', PropNpz.write_all v c w ts = Ok w' /\ extent w' <= extent w + (total (host_big v) e items - 22) /\
    w_closed w' = false /\ o_ok (w_out w') = true /\ w_method w' = m /\ w_endian w' = e.
Proof.
  intros HC Hm HF. induction HF as [|p [n t] items ts HMb HF IH]; intros w H1 H2 H3 H4.
  - exists w. cbn [PropNpz.write_all total fold_right]. repeat split; auto. lia.
  - destruct (extent_write v c m e p (n, t) w HC Hm HMb H1 H2 H3 H4) as (w1 & E & HX & K1 & K2 & K3 & K4 & _).
    destruct (IH w1 K1 K2 K3 K4) as (w' & E' & HX' & L). exists w'. cbn [PropNpz.write_all fst snd] in *. rewrite E. cbn [obind].
    split; [exact E'|]. split; [|exact L]. cbn [total fold_right]. fold (total (host_big v) e items). lia.
Qed.
Lemma members_archive v c m e items ts : libnpy_codec v c -> m = STORED \/ m = DEFLATED -> Forall2 (member v m e) items ts ->
  total (host_big v) e items < 2 ^ 32 -> len items <= 65535 ->
  exists w, PropNpz.write_all v c (new_writer m e) ts = Ok w /\ w_closed w = false /\ w_method w = m /\ w_endian w = e /\
    o_ok (w_out w) = true /\
    archive v c m e ts (w_str (w_close w)).
Proof.
  intros HC Hm HF HT HN. destruct (written v c m e items ts HC Hm HF (new_writer m e) eq_refl eq_refl eq_refl eq_refl) as (w & E & HX & K1 & K2 & K3 & K4).
  exists w. split; [exact E|]. do 4 (split; [assumption|]). split; [exact Hm|].
  assert (extent (new_writer m e) = 22) as E0 by reflexivity.
  split; [|split; [|split; [|split]]].
  - clear - HF. induction HF; constructor; [eapply member_storable; eassumption|assumption].
  - clear - HF HC. induction HF; constructor; [eapply member_packs; eassumption|assumption].
  - assert (length items = length ts) as HL by (clear - HF; induction HF; cbn; congruence). unfold len in *. lia.
  - rewrite extent_close by assumption. lia.
  - exists (new_writer m e), w. split; [now left|]. auto.
Qed.
Lemma cost_pos hb e p : shape_ok (a_shape (snd p)) -> 800 <= cost hb e p /\ 2 * file_size hb e (snd p) <= cost hb e p.
Proof.
  intros Hs. unfold cost. pose proof (len_nonneg _ (fst p)). split; [|lia]. unfold file_size.
  pose proof (len_nonneg _ (dict_of hb e (snd p))). pose proof (product_nonneg _ Hs).
  assert (0 <= array_item (a_type (snd p)) (elements (snd p))).
  { unfold array_item, file_item_size. destruct (a_type (snd p)); cbn [width]; try lia. destruct (longest_bounds (elements (snd p))). lia. }
  assert (0 <= (len (dict_of hb e (snd p)) + 11 + 63) / 64) by (apply Z.div_pos; lia). nia.
Qed.
Lemma total_app hb e a p : total hb e (a ++ [p]) = total hb e a + cost hb e p.
Proof. induction a as [|x a IH]; cbn [app total fold_right]; [lia|]. fold (total hb e (a ++ [p])). fold (total hb e a). lia. Qed.

(** ** Looking up members *)
Lemma resolve_both v m e items ts n : Forall2 (member v m e) items ts ->
  match resolve items n, resolve ts n with
  | Some a, Some t => is_array t a /\ recordable (host_big v) e a
  | None, None => True
  | _, _ => False
  end.
Proof.
  intros HF. unfold resolve.
  assert (forall k, match last_filed (map (fun p => (npy_name (fst p), snd p)) items) k,
                          last_filed (map (fun p => (npy_name (fst p), snd p)) ts) k with
    | Some a, Some t => is_array t a /\ recordable (host_big v) e a
    | None, None => True
    | _, _ => False end) as H.
  { intros k. induction HF as [|p q items ts HMb HF IH]; [exact I|]. cbn [map last_filed fst snd] in *. destruct HMb as (E & HA & HR & _).
    rewrite E. destruct (last_filed _ k), (last_filed (map _ ts) k); try contradiction; try exact IH.
    destruct (beq _ k); [|exact I]. split; assumption. }
  pose proof (H n) as H1. pose proof (H (n ++ str ".npy")) as H2.
  destruct (last_filed _ n), (last_filed (map _ ts) n); try contradiction; [exact H1|exact H2].
Qed.
