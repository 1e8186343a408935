(** Properties C34-C40 and C47: NPZ archives. *)
From Coq Require Import String ZArith List Bool Lia Permutation Sorted.
From Verif Require Import Base Stream BaseFacts Dtype Values Spec ValuesFacts PropValues Header HeaderFacts
  ParseFacts ParserInv ParserRel NpyFacts Tensor Npy TensorFacts PropTensor SaveFacts PropNpy
  Crc PropCrc Npz NpzFacts ArchiveFacts.
Import ListNotations.
Open Scope Z_scope.
Local Open Scope monad_scope.

(** *** C34 *)
Theorem C34_integers_round_trip : forall s tail x, good s = true ->
  (0 <= x < 2 ^ 16 -> write16 x = digits256 2 x /\
     (rest s = write16 x ++ tail -> read16 s = (x, set_rest s tail))) /\
  (0 <= x < 2 ^ 32 -> write32u x = digits256 4 x /\
     (rest s = write32u x ++ tail -> read32 s = (x, set_rest s tail))) /\
  (0 <= x < 2 ^ 64 -> write64u x = digits256 8 x /\
     (rest s = write64u x ++ tail -> read64 s = (x, set_rest s tail))).
Proof.
  intros s tail x G. split; [|split]; intros Hx; (split; [|intros R]).
  - rewrite write16_put by exact Hx. apply put_le_bytes.
  - now apply read16_write.
  - apply put_le_bytes.
  - pose proof (reads32 x Hx s tail G R) as H. unfold rd32, of_fun in H. destruct (read32 s). now injection H as -> ->.
  - apply put_le_bytes.
  - pose proof (reads64 x Hx s tail G R) as H. unfold rd64, of_fun in H. destruct (read64 s). now injection H as -> ->.
Qed.
Print Assumptions C34_integers_round_trip.
Example C34_case : write16 0xBEEF = [0xEF; 0xBE] /\ read16 (open_str [0xEF; 0xBE; 7]) = (0xBEEF, mk_istream [0xEF; 0xBE; 7] [7] false false false) /\
  write32u 0xDEADBEEF = [0xEF; 0xBE; 0xAD; 0xDE].
Proof. repeat split. Qed.

(** *** C38 *)
Lemma ends_with_npy_spec n : ends_with_npy n = true <-> exists p, n = p ++ str ".npy".
Proof.
  unfold ends_with_npy. destruct (len n <? 4) eqn:E.
  - split; [discriminate|]. intros [p ->]. rewrite len_app in E. change (len (str ".npy")) with 4 in E.
    pose proof (len_nonneg _ p). lia.
  - rewrite beq_eq. split.
    + intros H. exists (rev (zdrop 4 (rev n))). rewrite <- (rev_involutive n) at 1. rewrite <- (ztake_zdrop _ 4 (rev n)) at 1.
      rewrite H. now rewrite rev_app_distr, rev_involutive.
    + intros [p ->]. rewrite rev_app_distr. apply ztake_app_exact. reflexivity.
Qed.
Lemma npy_name_ends n : beq (skipn (length n - 4) n) (str ".npy") = true <-> exists p, n = p ++ str ".npy".
Proof.
  rewrite beq_eq. split.
  - intros H. exists (firstn (length n - 4) n). rewrite <- H. symmetry. apply firstn_skipn.
  - intros [p ->]. rewrite app_length. change (length (str ".npy")) with 4%nat.
    replace (length p + 4 - 4)%nat with (length p) by lia. rewrite skipn_app, skipn_all, Nat.sub_diag. reflexivity.
Qed.
Lemma archive_name_npy n : archive_name n = npy_name n.
Proof.
  unfold archive_name, npy_name. destruct (ends_with_npy n) eqn:E1, (beq _ _) eqn:E2; auto.
  - apply ends_with_npy_spec in E1. apply npy_name_ends in E1. congruence.
  - apply npy_name_ends in E2. apply ends_with_npy_spec in E2. congruence.
Qed.
Theorem C38_names_normalised : forall n,
  ((exists p, n = p ++ str ".npy") -> archive_name n = n) /\
  (~ (exists p, n = p ++ str ".npy") -> archive_name n = n ++ str ".npy") /\
  (exists p, archive_name n = p ++ str ".npy") /\ archive_name (archive_name n) = archive_name n /\
  archive_name n = npy_name n.
Proof.
  intros n. assert (forall m, (exists p, m = p ++ str ".npy") -> archive_name m = m) as H1.
  { intros m Hm. unfold archive_name. apply ends_with_npy_spec in Hm. now rewrite Hm. }
  assert (exists p, archive_name n = p ++ str ".npy") as H2.
  { unfold archive_name. destruct (ends_with_npy n) eqn:E; [now apply ends_with_npy_spec|]. now exists n. }
  split; [apply H1|]. split; [|split; [exact H2|split; [now apply H1|apply archive_name_npy]]].
  intros Hn. unfold archive_name. destruct (ends_with_npy n) eqn:E; [|reflexivity].
  apply ends_with_npy_spec in E. contradiction.
Qed.
Print Assumptions C38_names_normalised.
Example C38_case : archive_name (str "color") = str "color.npy" /\ archive_name (str "color.npy") = str "color.npy" /\
  archive_name (str "npy") = str "npy.npy" /\ archive_name (str ".npy") = str ".npy" /\ archive_name (str "a.NPY") = str "a.NPY.npy".
Proof. repeat split. Qed.

(** ** Writing named tensors, and what later reads do to a reader *)
Fixpoint write_all (v : env) (c : codec) (w : writer) (items : list (bytes * tensor)) : outcome writer :=
  match items with
  | [] => Ok w
  | (n, t) :: r => let* w' := w_write v c w n t in write_all v c w' r
  end.
(** Both kinds of writer (npzstringwriter, npzfilewriter on a file that opened). *)
Definition fresh_writer (m : Z) (e : endian) (w : writer) : Prop :=
  w = new_writer m e \/ w = new_file_writer true m e.
(** Both kinds of reader. *)
Definition opened (a : bytes) (r : reader) : Prop :=
  new_string_reader a = Ok r \/ new_file_reader (Some a) = Ok r.
(** Any sequence of reads (of any type) and peeks, of any names, failing or not. *)
Inductive reader_after (v : env) (c : codec) (r : reader) : reader -> Prop :=
| after_none : reader_after v c r r
| after_read r' d n g : reader_after v c r r' -> reader_after v c r (snd (fst (r_read v c d r' n g)))
| after_peek r' n g : reader_after v c r r' -> reader_after v c r (snd (fst (r_peek v c r' n g))).

(** A tensor that saves within the limits of one header byte and 32-bit sizes. *)
Definition storable (v : env) (e : endian) (p : bytes * tensor) : Prop :=
  api_tensor (snd p) /\ len (npy_name (fst p)) <= 65535 /\
  forall b, save v (snd p) e = Ok b -> len b < 2 ^ 32.
(** ... and that the reading side [v2] can load back unchanged. *)
Definition loadable (v1 : env) (e : endian) (v2 : env) (p : bytes * tensor) : Prop :=
  save_fits v1 (snd p) e /\ room v2 (snd p) /\ same_host_if_complex v1 v2 (snd p) /\
  Forall no_nuls (t_values (snd p)) /\ forall b, save v1 (snd p) e = Ok b -> len b <= mem v2.

(** Saved files are bytes. *)
Lemma flat_map_bytes_ok {A} (f : A -> bytes) l : (forall x, In x l -> bytes_ok (f x)) -> bytes_ok (flat_map f l).
Proof.
  induction l as [|x l IH]; intros H; cbn [flat_map]; [constructor|].
  apply bytes_ok_app. split; [apply H; now left|apply IH; intros y Hy; apply H; now right].
Qed.
Lemma rev_ok b : bytes_ok b -> bytes_ok (rev b).
Proof. intros H. apply Forall_forall. intros x Hx. apply in_rev in Hx. eapply Forall_forall in H; eauto. Qed.
Lemma write_values_ok v d e es : bytes_ok (write_values v d e es).
Proof.
  unfold write_values. destruct (is_string d); [|destruct (raw_type d || is_native v e)].
  - apply flat_map_bytes_ok. intros [x|x y|cs] _; cbn [write_wstr]; try constructor.
    apply bytes_ok_app. split; [|apply zrepeat_0_ok]. apply flat_map_bytes_ok. intros c _. apply unit_bytes_ok.
  - apply flat_map_bytes_ok. intros x _. apply elem_image_ok.
  - apply flat_map_bytes_ok. intros x _. apply rev_ok, elem_image_ok.
Qed.
Lemma dec_ok z : 0 <= z -> bytes_ok (dec z).
Proof.
  intros H. apply dec_digits in H. eapply Forall_impl; [|exact H]. unfold digitb, is_byte. intros; lia.
Qed.
Lemma spell_ok z : bytes_ok (spell z).
Proof.
  unfold spell. destruct (z <? 0) eqn:E; [|apply dec_ok; lia]. constructor; [unfold is_byte; lia|apply dec_ok; lia].
Qed.
Lemma join_ok l : Forall bytes_ok l -> bytes_ok (join_comma l).
Proof.
  induction l as [|x l IH]; intros H; [constructor|]. inversion H; subst. destruct l as [|y l]; [assumption|].
  rewrite join_comma_cons. apply bytes_ok_app. split; [assumption|]. apply bytes_ok_app. split; [apply str_ok|auto].
Qed.
Lemma python_dict_ok dt f sh : bytes_ok dt -> bytes_ok (python_dict dt f sh).
Proof.
  intros Hd. unfold python_dict, dict_text, standard_entries. cbn [flat_map]. unfold entry_text.
  cbn [before_key before_colon after_colon after_comma value key_text value_text].
  repeat (apply bytes_ok_app; split); try apply str_ok; try (constructor; fail); auto.
  - destruct f; apply str_ok.
  - apply join_ok. apply Forall_forall. intros x Hx. apply in_map_iff in Hx as (z & <- & _). apply spell_ok.
  - destruct (_ =? _)%nat; [apply str_ok|constructor].
Qed.
Lemma array_descr_ok d big es : bytes_ok (array_descr d big es).
Proof.
  assert (forall d, bytes_ok (numpy_descr d big)) as HN.
  { intros d0. unfold numpy_descr. apply bytes_ok_app. split.
    - constructor; [destruct (_ =? _)%nat; [|destruct big]; unfold is_byte; lia|constructor; [destruct d0; unfold is_byte; cbn; lia|constructor]].
    - apply dec_ok. destruct d0; cbn; lia. }
  destruct d; try apply HN. unfold array_descr. apply bytes_ok_app. split; [destruct big; apply str_ok|].
  apply dec_ok. apply longest_bounds.
Qed.
Lemma save_ok v t e b : api_tensor t -> save v t e = Ok b -> bytes_ok b.
Proof.
  intros Ht H. rewrite save_file in H. injection H as <-. apply bytes_ok_app. split; [|apply write_values_ok].
  pose proof (api_tensor_wf _ Ht) as (Hs & _).
  destruct (write_npy_header_shape (array_descr (t_dtype t) (means_big (host_big v) e) (t_values t)) (t_fortran t) (t_shape t))
    as (pad & _ & _ & ->).
  rewrite (dictionary_python _ _ _ Hs).
  apply bytes_ok_app. split.
  { do 8 (constructor; [unfold is_byte; lia|]). constructor; [unfold u8; apply Z.mod_pos_bound; lia|].
    constructor; [unfold is_byte; lia|constructor]. }
  apply bytes_ok_app. split; [apply python_dict_ok, array_descr_ok|].
  apply bytes_ok_app. split; [|constructor; [unfold is_byte; lia|constructor]].
  unfold zrepeat. apply Forall_forall. intros x Hx. apply repeat_spec in Hx. subst. unfold is_byte. lia.
Qed.

(** The saved files behind a list of tensors. *)
Definition file_of (v : env) (e : endian) (t : tensor) : bytes := match save v t e with Ok b => b | _ => [] end.
Lemma file_of_save v e t : save v t e = Ok (file_of v e t).
Proof. unfold file_of. now rewrite save_file. Qed.
Definition files (v : env) (e : endian) (items : list (bytes * tensor)) : list (bytes * bytes) :=
  map (fun p => (npy_name (fst p), file_of v e (snd p))) items.
Lemma write_all_put v c items : forall w, w_closed w = false ->
  write_all v c w items = put_all c w (files v (w_endian w) items).
Proof.
  induction items as [|[n t] r IH]; intros w Hw; [reflexivity|]. cbn [write_all files map put_all fst snd].
  unfold w_write, w_write_on; fold w_write_file. rewrite Hw, file_of_save, archive_name_npy. cbn [obind].
  destruct (w_write_file c w (npy_name n) (file_of v (w_endian w) t)) as [w'|?| |?] eqn:E; try reflexivity.
  cbn [obind]. apply w_write_file_grows in E as (_ & _ & E1 & E2 & _). rewrite IH by exact E2. now rewrite E1.
Qed.
Lemma resolve_files v e items n : lookup_items (files v e items) n = option_map (file_of v e) (resolve items n).
Proof.
  unfold lookup_items, resolve, files.
  assert (forall k, last_filed (map (fun p => (npy_name (fst p), file_of v e (snd p))) items) k =
    option_map (file_of v e) (last_filed (map (fun p => (npy_name (fst p), snd p)) items) k)) as H.
  { intros k. rewrite <- last_filed_map, map_map. reflexivity. }
  rewrite !H. destruct (last_filed _ n); reflexivity.
Qed.
Lemma resolve_in {X} (items : list (bytes * X)) n x : resolve items n = Some x -> exists k, In (k, x) items.
Proof.
  assert (forall k, last_filed (map (fun p => (npy_name (fst p), snd p)) items) k = Some x -> exists k, In (k, x) items) as H.
  { intros k. induction items as [|[m y] items IH]; [discriminate|]. cbn [map last_filed fst snd].
    destruct (last_filed _ k) eqn:E.
    - intros [= ->]. destruct (IH eq_refl) as [k' Hk]. exists k'. now right.
    - destruct (beq _ k); [|discriminate]. intros [= ->]. exists m. now left. }
  unfold resolve. cbv zeta. destruct (last_filed _ n) eqn:E; [intros [= ->]; eauto|apply H].
Qed.

(** What archives need of the compressor for these items: nothing when STORED. *)
Definition packs (c : codec) (m : Z) (v : env) (e : endian) (p : bytes * tensor) : Prop :=
  forall b, save v (snd p) e = Ok b ->
  (exists cb, c_deflate c b = Ok cb /\ len cb < 2 ^ 32) \/ m = STORED.
Definition unpacks (c : codec) (m : Z) (v : env) (e : endian) (v2 : env) (p : bytes * tensor) : Prop :=
  forall b cb, save v (snd p) e = Ok b -> c_deflate c b = Ok cb ->
  (c_inflate c cb = Ok b /\ len cb <= mem v2) \/ m = STORED.

Lemma fresh_new m e w : fresh_writer m e w -> w = new_writer m e.
Proof. intros [-> | ->]; reflexivity. Qed.
Lemma open_opened a r : opened a r -> exists s, failb s = false /\ whole s = a /\ open_reader s = Ok r.
Proof. intros [H|H]; [exists (open_str a)|exists (open_file a)]; repeat split; exact H. Qed.
(** Only the successful outcome of [c_deflate] matters for STORED archives. *)
Definition stub (c : codec) (m : Z) : codec :=
  if m =? STORED then mk_codec (fun _ => Throw RuntimeError) (c_inflate c) else c.
Lemma stub_put c m items : forall w, w_method w = m -> put_all (stub c m) w items = put_all c w items.
Proof.
  unfold stub. destruct (m =? STORED) eqn:E; [|reflexivity].
  induction items as [|[n b] r IH]; intros w Hw; [reflexivity|]. cbn [put_all].
  assert (w_write_file (mk_codec (fun _ => Throw RuntimeError) (c_inflate c)) w n b = w_write_file c w n b) as ->.
  { unfold w_write_file, w_write_file_on, write_file, write_file_on. rewrite Hw, E. reflexivity. }
  destruct (w_write_file c w n b) as [w'|?| |?] eqn:EW; try reflexivity. cbn [obind].
  apply w_write_file_grows in EW as (_ & EM & _). apply IH. congruence.
Qed.
Lemma stub_read c m v items ps r n : laid (stub c m) m 0 items ps -> serving ps r ->
  r_read_file v c r n = r_read_file v (stub c m) r n.
Proof.
  intros _ _. unfold stub. destruct (m =? STORED); reflexivity.
Qed.

Lemma archive_setup v1 c m e items w0 : fresh_writer m e w0 -> m = STORED \/ m = DEFLATED ->
  Forall (storable v1 e) items -> Forall (packs c m v1 e) items ->
  exists w, write_all v1 c w0 items = Ok w /\ w_closed w = false /\
  let a := w_str (w_close w) in
  (len items <= 65535 -> len a < 2 ^ 32 ->
   exists ps, laid (stub c m) m 0 (files v1 e items) ps /\ a = archive_of ps /\
     (forall s, failb s = false -> whole s = a -> exists r, open_reader s = Ok r /\ serving ps r /\
        r_keys r = sort_keys (map (fun p => npy_name (fst p)) items))).
Proof.
  intros Hw Hm HS HP. apply fresh_new in Hw. subst w0.
  rewrite (write_all_put v1 c items (new_writer m e) eq_refl). cbn [new_writer w_endian].
  destruct (put_all_ok c m (files v1 e items)) with (w := new_writer m e) as (w & HW); try reflexivity.
  { destruct Hm as [->| ->]; [now left|]. right. split; [reflexivity|]. unfold files. apply Forall_forall.
    intros x Hx. apply in_map_iff in Hx as (p & <- & Hp). eapply Forall_forall in HP; [|exact Hp].
    destruct (HP _ (file_of_save v1 e (snd p))) as [(cb & HC & _)|HC]; [|discriminate]. exists cb. exact HC. }
  exists w. split; [exact HW|]. split.
  { assert (forall l w0 w1, w_closed w0 = false -> put_all c w0 l = Ok w1 -> w_closed w1 = false) as HG.
    { induction l as [|[n0 b0] l IH]; intros w0 w1 H0 H1; cbn [put_all] in H1; [injection H1 as <-; exact H0|].
      destruct (w_write_file c w0 n0 b0) as [w2|?| |?] eqn:E; try discriminate. cbn [obind] in H1.
      eapply IH; [|exact H1]. now apply w_write_file_grows in E. }
    eapply HG; [|exact HW]. reflexivity. }
  set (a := w_str (w_close w)) in *. intros HN HL.
  assert (Forall (item_ok (stub c m)) (files v1 e items)) as HI.
  { unfold files. apply Forall_forall. intros x Hx. apply in_map_iff in Hx as (p & <- & Hp).
    eapply Forall_forall in HP; [|exact Hp]. eapply Forall_forall in HS; [|exact Hp].
    destruct HS as (Ht & Hn & Hb). specialize (Hb _ (file_of_save v1 e (snd p))).
    split; [eapply save_ok; [exact Ht|apply file_of_save]|]. cbn [fst snd]. split; [exact Hb|]. split; [lia|].
    intros cb HC. unfold stub in HC. destruct (m =? STORED) eqn:E; [discriminate|].
    destruct (HP _ (file_of_save v1 e (snd p))) as [(cb' & HC' & HL')|HE].
    - assert (Ok cb = Ok cb') as [= ->] by congruence. exact HL'.
    - apply Z.eqb_neq in E. contradiction. }
  assert (len (files v1 e items) < 65536) as HN'.
  { unfold files, len in *. rewrite map_length. apply Z.le_lt_trans with 65535; [exact HN|reflexivity]. }
  rewrite <- (stub_put c m _ (new_writer m e) eq_refl) in HW.
  destruct (write_open (stub c m) m e (files v1 e items) w (open_str a) HI HN' HW HL eq_refl eq_refl)
    as (r0 & ps & HPs & HA & _).
  exists ps. split; [exact HPs|]. split; [exact HA|]. intros s F HWs.
  destruct (open_serving ps s (laid_ok _ _ _ _ _ HPs)) as (r & HR & HSv & HK); auto.
  { now rewrite (laid_len _ _ _ _ _ HPs). }
  { rewrite <- HA. exact HL. }
  { rewrite HWs. exact HA. }
  exists r. split; [exact HR|]. split; [exact HSv|]. rewrite HK.
  rewrite (laid_names _ _ _ _ _ HPs). unfold files. now rewrite map_map.
Qed.

Lemma r_read_reader v c d r n g : snd (fst (r_read v c d r n g)) = snd (r_read_file v c r n).
Proof.
  unfold r_read. destruct (r_read_file v c r n) as [[b|?| |?] r']; try reflexivity.
  destruct (load v d (open_str b) g) as [[o s] g']. reflexivity.
Qed.
Lemma r_peek_reader v c r n g : snd (fst (r_peek v c r n g)) = snd (r_read_file v c r n).
Proof.
  unfold r_peek. destruct (r_read_file v c r n) as [[b|?| |?] r']; try reflexivity.
  destruct (peek v (open_str b) g) as [[o s] g']. reflexivity.
Qed.
Lemma after_serving v c m items ps r r' : laid (stub c m) m 0 items ps -> serving ps r -> reader_after v c r r' ->
  serving ps r' /\ r_keys r' = r_keys r.
Proof.
  intros HL HS HA. induction HA as [|r' d n g HA IH|r' n g HA IH]; [auto|..].
  - rewrite r_read_reader. destruct IH as [IH1 IH2].
    rewrite (stub_read c m v items ps r' n HL IH1). destruct (serving_step v (stub c m) m items ps r' n HL IH1) as [H1 H2].
    split; [exact H1|congruence].
  - rewrite r_peek_reader. destruct IH as [IH1 IH2].
    rewrite (stub_read c m v items ps r' n HL IH1). destruct (serving_step v (stub c m) m items ps r' n HL IH1) as [H1 H2].
    split; [exact H1|congruence].
Qed.

(** Every read through every reader history. *)
Lemma archive_reads v1 v2 c m e items ps r r' n : m = STORED \/ m = DEFLATED ->
  (forall k t, In (k, t) items -> len (file_of v1 e t) <= mem v2 \/ m <> STORED) ->
  Forall (unpacks c m v1 e v2) items ->
  laid (stub c m) m 0 (files v1 e items) ps -> serving ps r -> reader_after v2 c r r' ->
  match resolve items n with
  | Some t => exists r'', r_read_file v2 c r' n = (Ok (file_of v1 e t), r'')
  | None => r_read_file v2 c r' n = (Throw InvalidArgument, r')
  end.
Proof.
  intros Hm HM HU HL HS HA. destruct (after_serving v2 c m _ ps r r' HL HS HA) as [HS' _].
  rewrite (stub_read c m v2 _ ps r' n HL HS').
  pose proof (serving_read v2 (stub c m) m _ ps r' n HL HS') as H. rewrite resolve_files in H.
  destruct (resolve items n) as [t|]; cbn [option_map] in H; apply H; clear H.
  all: intros b cb (k & Hk) HSt; unfold files in Hk; apply in_map_iff in Hk as ([k0 t0] & [= _ <-] & Hin); cbn [snd] in HSt |- *.
  all: destruct HSt as [[-> ->]|[-> HD]].
  all: try (split; [|intros; discriminate]; destruct (HM _ _ Hin); [assumption|congruence]).
  all: eapply Forall_forall in HU; [|exact Hin]; destruct (HU _ cb (file_of_save v1 e _) HD) as [[H1 H2]|H1]; [|discriminate].
  all: split; [exact H2|intros _; exact H1].
Qed.

(** *** C35 *)
Theorem C35_stored_round_trip : forall v1 v2 c e items w0,
  fresh_writer STORED e w0 -> Forall (storable v1 e) items -> Forall (loadable v1 e v2) items ->
  exists w, write_all v1 c w0 items = Ok w /\
  let a := w_str (w_close w) in
  (len items <= 65535 -> len a < 2 ^ 32 ->
   (exists r, new_string_reader a = Ok r) /\ (exists r, new_file_reader (Some a) = Ok r) /\
   forall r r' n g, opened a r -> reader_after v2 c r r' -> prior_parses g ->
     match resolve items n with
     | Some t => exists r'' g', r_read v2 c (t_dtype t) r' n g = (Ok t, r'', g') /\ prior_parses g' /\ reader_after v2 c r r''
     | None => forall d, r_read v2 c d r' n g = (Throw InvalidArgument, r', g)
     end).
Proof.
  intros v1 v2 c e items w0 Hw HS HL.
  destruct (archive_setup v1 c STORED e items w0 Hw (or_introl eq_refl) HS) as (w & HW & _ & HA).
  { apply Forall_forall. intros p _ b _. now right. }
  exists w. split; [exact HW|]. intros a HN HLa. destruct (HA HN HLa) as (ps & HP & HAr & HO). clear HA.
  split; [|split].
  - destruct (HO (open_str a) eq_refl eq_refl) as (r & HR & _). exists r. exact HR.
  - destruct (HO (open_file a) eq_refl eq_refl) as (r & HR & _). exists r. exact HR.
  - intros r r' n g Hop Haf Hg. apply open_opened in Hop as (s & F & HWs & HR).
    destruct (HO s F HWs) as (r0 & HR0 & HSv & _). rewrite HR in HR0. injection HR0 as <-.
    pose proof (archive_reads v1 v2 c STORED e items ps r r' n (or_introl eq_refl)) as H.
    specialize (H ltac:(intros k t Hin; left; eapply Forall_forall in HL; [|exact Hin]; destruct HL as (_ & _ & _ & _ & HL); apply HL, file_of_save)).
    specialize (H ltac:(apply Forall_forall; intros p _ b cb _ _; now right) HP HSv Haf).
    destruct (resolve items n) as [t|] eqn:E.
    + destruct H as (r'' & H). apply resolve_in in E as (k & Hin).
      eapply Forall_forall in HL; [|exact Hin]. destruct HL as (H1 & H2 & H3 & H4 & _). cbn [snd] in *.
      eapply Forall_forall in HS; [|exact Hin]. destruct HS as (Ht & _). cbn [snd] in *.
      destruct (C26_save_load_round_trip v1 v2 t e Ht H1 H2 H3 H4) as (file & HF & Hload).
      rewrite file_of_save in HF. injection HF as HF.
      destruct (Hload (open_str file) g [] eq_refl Hg ltac:(now rewrite app_nil_r)) as (g' & Hl & Hg').
      exists r'', g'.
      assert (r_read v2 c (t_dtype t) r' n g = (Ok t, r'', g')) as HRd by (unfold r_read; rewrite H, HF, Hl; reflexivity).
      split; [exact HRd|]. split; [exact Hg'|].
      replace r'' with (snd (fst (r_read v2 c (t_dtype t) r' n g))) by (now rewrite HRd). now constructor.
    + intros d. unfold r_read. now rewrite H.
Qed.
Print Assumptions C35_stored_round_trip.
(** Two entries under one name, one of them already suffixed; big-endian strings and
    little-endian numbers. *)
Definition case_items : list (bytes * tensor) :=
  [(str "a", case_tensor); (str "b.npy", case_tensor); (str "a.npy", case_tensor); (str "a.npy.npy", case_tensor)].
Example C35_case :
  Forall (storable case_env BIG) case_items /\ Forall (loadable case_env BIG case_env) case_items /\
  resolve case_items (str "a") = Some case_tensor /\ resolve case_items (str "b") = Some case_tensor /\
  resolve case_items (str "c") = None /\
  exists w, write_all case_env (mk_codec Ok Ok) (new_writer STORED BIG) case_items = Ok w /\
    len (w_str (w_close w)) = 950.
Proof.
  assert (storable case_env BIG (str "a", case_tensor) /\ loadable case_env BIG case_env (str "a", case_tensor)) as [HS HL].
  { destruct C26_case as (H1 & H2 & H3 & H4 & H5 & _). split.
    - split; [exact H1|]. split; [vm_compute; discriminate|]. intros b Hb. vm_compute in Hb. injection Hb as <-. reflexivity.
    - split; [exact H2|]. split; [exact H3|]. split; [exact H4|]. split; [exact H5|].
      intros b Hb. vm_compute in Hb. injection Hb as <-. vm_compute. discriminate. }
  assert (forall n, len (npy_name n) <= 65535 -> storable case_env BIG (n, case_tensor)) as HS'.
  { intros n Hn. destruct HS as (H1 & _ & H2). split; [exact H1|]. split; [exact Hn|exact H2]. }
  split. { repeat (apply Forall_cons; [apply HS'; vm_compute; discriminate|]). constructor. }
  split. { repeat (apply Forall_cons; [exact HL|]). constructor. }
  split; [reflexivity|]. split; [reflexivity|]. split; [reflexivity|].
  destruct (write_all case_env (mk_codec Ok Ok) (new_writer STORED BIG) case_items) as [w| | |] eqn:E;
    try (vm_compute in E; discriminate).
  exists w. split; [reflexivity|]. vm_compute in E. injection E as <-. vm_compute. reflexivity.
Qed.

(** ** Archives, stored or deflated *)
Definition archive (v : env) (c : codec) (m : Z) (e : endian) (items : list (bytes * tensor)) (a : bytes) : Prop :=
  (m = STORED \/ m = DEFLATED) /\
  Forall (storable v e) items /\ Forall (packs c m v e) items /\ len items <= 65535 /\ len a < 2 ^ 32 /\
  exists w0 w, fresh_writer m e w0 /\ write_all v c w0 items = Ok w /\ a = w_str (w_close w).
Lemma archive_ps v c m e items a : archive v c m e items a ->
  exists ps, laid (stub c m) m 0 (files v e items) ps /\ a = archive_of ps /\
    (forall r, opened a r -> serving ps r /\ r_keys r = sort_keys (map (fun p => npy_name (fst p)) items)) /\
    (exists r, new_string_reader a = Ok r) /\ (exists r, new_file_reader (Some a) = Ok r).
Proof.
  intros (Hm & HS & HP & HN & HL & w0 & w & Hw & HW & ->).
  destruct (archive_setup v c m e items w0 Hw Hm HS HP) as (w' & HW' & _ & HA).
  rewrite HW in HW'. injection HW' as <-. destruct (HA HN HL) as (ps & H1 & H2 & H3).
  exists ps. split; [exact H1|]. split; [exact H2|]. split; [|split].
  - intros r Hr. apply open_opened in Hr as (s & F & Ws & HR).
    destruct (H3 s F Ws) as (r0 & HR0 & HSv). rewrite HR in HR0. injection HR0 as <-. exact HSv.
  - destruct (H3 (open_str (w_str (w_close w))) eq_refl eq_refl) as (r & HR & _). exists r. exact HR.
  - destruct (H3 (open_file (w_str (w_close w))) eq_refl eq_refl) as (r & HR & _). exists r. exact HR.
Qed.
Example archive_case : exists a, archive case_env (mk_codec Ok Ok) DEFLATED BIG case_items a.
Proof.
  destruct (write_all case_env (mk_codec Ok Ok) (new_writer DEFLATED BIG) case_items) as [w| | |] eqn:E;
    try (vm_compute in E; discriminate).
  exists (w_str (w_close w)). split; [now right|]. split; [apply C35_case|]. split.
  { destruct C35_case as (H & _). apply Forall_forall. intros p Hp b Hb. left. exists b. split; [reflexivity|].
    eapply Forall_forall in H; [|exact Hp]. now apply H. }
  split; [vm_compute; discriminate|]. split.
  { vm_compute in E. injection E as <-. vm_compute. reflexivity. }
  exists (new_writer DEFLATED BIG), w. split; [now left|]. auto.
Qed.

(** *** C36 *)
Lemma bytes_leb_lex a : forall b, bytes_leb a b = true -> lex_le a b.
Proof.
  induction a as [|x a IH]; intros b H; [left; now exists b|]. destruct b as [|y b]; [discriminate|]. cbn [bytes_leb] in H.
  destruct (x <? y) eqn:E1; [right; exists [], x, y, a, b; repeat split; lia|].
  destruct (y <? x) eqn:E2; [discriminate|]. assert (x = y) as -> by lia.
  destruct (IH b H) as [[t ->]|(p & x0 & y0 & a' & b' & -> & -> & Hl)]; [left; now exists t|].
  right. exists (y :: p), x0, y0, a', b'. auto.
Qed.
Lemma bytes_leb_total a : forall b, bytes_leb a b = false -> bytes_leb b a = true.
Proof.
  induction a as [|x a IH]; intros [|y b] H; try discriminate; [reflexivity|]. cbn [bytes_leb] in *.
  destruct (x <? y) eqn:E1; [discriminate|]. destruct (y <? x) eqn:E2; [reflexivity|]. now apply IH.
Qed.
Lemma bytes_leb_trans a : forall b c, bytes_leb a b = true -> bytes_leb b c = true -> bytes_leb a c = true.
Proof.
  induction a as [|x a IH]; intros [|y b] [|z c] H1 H2; try discriminate; [reflexivity..|]. cbn [bytes_leb] in *.
  destruct (x <? y) eqn:E1, (y <? z) eqn:E2.
  - assert (x <? z = true) as -> by lia. reflexivity.
  - destruct (z <? y) eqn:E3; [discriminate|]. assert (x <? z = true) as -> by lia. reflexivity.
  - destruct (y <? x) eqn:E3; [discriminate|]. assert (x <? z = true) as -> by lia. reflexivity.
  - destruct (y <? x) eqn:E3; [discriminate|]. destruct (z <? y) eqn:E4; [discriminate|].
    assert (x <? z = false) as -> by lia. assert (z <? x = false) as -> by lia. now apply (IH b).
Qed.
Definition leb_le a b := bytes_leb a b = true.
Lemma insert_sorted k l : StronglySorted leb_le l -> StronglySorted leb_le (insert_key k l).
Proof.
  induction 1 as [|x l HS IH HF]; cbn [insert_key]; [repeat constructor|].
  destruct (bytes_leb k x) eqn:E.
  - constructor; [now constructor|]. constructor; [exact E|]. eapply Forall_impl; [|exact HF].
    intros y Hy. eapply bytes_leb_trans; eauto.
  - constructor; [exact IH|]. apply bytes_leb_total in E.
    assert (forall y, In y (insert_key k l) -> y = k \/ In y l) as HI.
    { clear. induction l as [|x l IH]; cbn [insert_key]; intros y; [intros [->|[]]; auto|].
      destruct (bytes_leb k x); cbn [In]; [intuition|]. intros [->|H]; [auto|]. destruct (IH y H); auto. }
    apply Forall_forall. intros y Hy. destruct (HI y Hy) as [->|Hy']; [exact E|]. eapply Forall_forall in HF; eauto.
Qed.
Lemma insert_perm k l : Permutation (insert_key k l) (k :: l).
Proof.
  induction l as [|x l IH]; cbn [insert_key]; [reflexivity|]. destruct (bytes_leb k x); [reflexivity|].
  rewrite IH. apply perm_swap.
Qed.
Lemma sort_sorted l : StronglySorted lex_le (sort_keys l) /\ Permutation (sort_keys l) l.
Proof.
  assert (StronglySorted leb_le (sort_keys l) /\ Permutation (sort_keys l) l) as [H1 H2].
  { unfold sort_keys. induction l as [|x l [IH1 IH2]]; cbn [fold_right]; [repeat constructor|].
    split; [now apply insert_sorted|]. rewrite insert_perm. now constructor. }
  split; [|exact H2]. clear H2. induction H1; constructor; auto. eapply Forall_impl; [|eassumption]. intros; now apply bytes_leb_lex.
Qed.
Theorem C36_keys_are_sorted_names : forall v v2 c m e items a r r',
  archive v c m e items a -> opened a r -> reader_after v2 c r r' ->
  StronglySorted lex_le (r_keys r') /\
  Permutation (r_keys r') (map (fun p => npy_name (fst p)) items) /\
  Forall (fun k => exists p, k = p ++ str ".npy") (r_keys r').
Proof.
  intros v v2 c m e items a r r' HA Hop Haf. destruct (archive_ps _ _ _ _ _ _ HA) as (ps & HL & _ & HO & _).
  destruct (HO r Hop) as [HS HK]. destruct (after_serving v2 c m _ ps r r' HL HS Haf) as [_ HK'].
  rewrite HK', HK. destruct (sort_sorted (map (fun p => npy_name (fst p)) items)) as [H1 H2].
  split; [exact H1|]. split; [exact H2|]. apply Forall_forall. intros k Hk.
  apply (Permutation_in _ H2) in Hk. apply in_map_iff in Hk as (p & <- & _).
  rewrite <- archive_name_npy. apply C38_names_normalised.
Qed.
Print Assumptions C36_keys_are_sorted_names.
(** The order is antisymmetric, so the list is determined by the two facts above. *)
Theorem C36_order_is_antisymmetric : forall a b, lex_le a b -> lex_le b a -> a = b.
Proof.
  assert (forall a b, lex_le a b -> bytes_leb a b = true) as HB.
  { intros a b [[t ->]|(p & x & y & a' & b' & -> & -> & Hl)].
    - induction a as [|x a IH]; [reflexivity|]. cbn [app bytes_leb]. now rewrite Z.ltb_irrefl.
    - induction p as [|z p IH]; cbn [app bytes_leb]; [assert (x <? y = true) as -> by lia; reflexivity|].
      now rewrite Z.ltb_irrefl. }
  intros a b H1 H2. apply HB in H1, H2. revert b H1 H2.
  induction a as [|x a IH]; intros [|y b] H1 H2; try discriminate; [reflexivity|]. cbn [bytes_leb] in *.
  destruct (x <? y) eqn:E1, (y <? x) eqn:E2; try discriminate; try lia. assert (x = y) as -> by lia. f_equal. auto.
Qed.
Example C36_case : forall a r, archive case_env (mk_codec Ok Ok) DEFLATED BIG case_items a -> opened a r ->
  r_keys r = [str "a.npy"; str "a.npy"; str "a.npy.npy"; str "b.npy"].
Proof.
  intros a r HA Hop. destruct (archive_ps _ _ _ _ _ _ HA) as (ps & _ & _ & HO & _). destruct (HO r Hop) as [_ ->]. reflexivity.
Qed.

(** *** C37 *)
Lemma contains_serving c m items ps r n : laid c m 0 items ps -> serving ps r ->
  r_contains r n = true <-> In n (map fst items).
Proof.
  intros HL (E & _). unfold r_contains. rewrite E. pose proof (laid_last _ _ _ _ _ HL n) as H.
  assert (forall X (l : list (bytes * X)), last_filed l n = None <-> ~ In n (map fst l)) as HN.
  { intros X l. induction l as [|[k x] l IH]; cbn [last_filed map fst In]; [split; auto|].
    destruct (last_filed l n); split; try discriminate.
    - intros HI. exfalso. apply HI. right. destruct (in_dec bytes_eq_dec n (map fst l)) as [|Hn]; [assumption|]. apply IH in Hn. discriminate.
    - destruct (beq k n) eqn:EB; [discriminate|]. intros _ [->|HI]; [now rewrite beq_refl in EB|]. now apply IH in HI.
    - intros HI. destruct (beq k n) eqn:EB; [|reflexivity]. apply beq_eq in EB. tauto. }
  destruct (efind (directory_map (dir ps)) n).
  - destruct H as (b & cb & _ & HF & _). split; [intros _|reflexivity].
    destruct (in_dec bytes_eq_dec n (map fst items)) as [|Hn]; [assumption|]. apply HN in Hn. congruence.
  - split; [discriminate|]. apply HN in H. contradiction.
Qed.
Lemma resolve_some {X} (items : list (bytes * X)) n : let names := map (fun p => npy_name (fst p)) items in
  (exists x, resolve items n = Some x) <-> In n names \/ In (n ++ str ".npy") names.
Proof.
  intros names. unfold resolve. cbv zeta.
  assert (forall k, (exists x, last_filed (map (fun p : bytes * X => (npy_name (fst p), snd p)) items) k = Some x) <-> In k names) as HK.
  { intros k. subst names. induction items as [|[m y] items IH]; cbn [map last_filed fst snd In]; [split; [intros [x Hx]; discriminate|tauto]|].
    destruct (last_filed _ k) eqn:E; split.
    - intros _. right. apply IH. eauto.
    - intros _. eauto.
    - intros [x Hx]. destruct (beq (npy_name m) k) eqn:EB; [|discriminate]. left. now apply beq_eq.
    - intros [->|HI]; [rewrite beq_refl; eauto|]. apply IH in HI as [x Hx]. discriminate. }
  rewrite <- (HK n), <- (HK (n ++ str ".npy")).
  destruct (last_filed _ n); split; intros H; eauto.
  - destruct H as [[x Hx]|H]; [discriminate|exact H].
Qed.
Theorem C37_lookup : forall v v2 c m e items a r r' n,
  archive v c m e items a -> opened a r -> reader_after v2 c r r' ->
  let names := map (fun p => npy_name (fst p)) items in
  (r_contains r' n = true <-> In n names) /\
  (In n names \/ In (n ++ str ".npy") names -> exists t, resolve items n = Some t) /\
  (~ In n names -> ~ In (n ++ str ".npy") names -> forall d g,
     r_read v2 c d r' n g = (Throw InvalidArgument, r', g) /\ r_peek v2 c r' n g = (Throw InvalidArgument, r', g)) /\
  (~ (exists p, n = p ++ str ".npy") -> r_contains r' n = false).
Proof.
  intros v v2 c m e items a r r' n HA Hop Haf names. destruct (archive_ps _ _ _ _ _ _ HA) as (ps & HL & _ & HO & _).
  destruct (HO r Hop) as [HS HK]. destruct (after_serving v2 c m _ ps r r' HL HS Haf) as [HS' HK'].
  pose proof (contains_serving _ _ _ _ r' n HL HS') as HC.
  replace (map fst (files v e items)) with names in HC by (unfold files, names; now rewrite map_map).
  split; [exact HC|]. split; [intros H; now apply resolve_some|]. split.
  - intros H1 H2 d g. 
    assert (r_read_file v2 c r' n = (Throw InvalidArgument, r')) as HRF.
    { pose proof (find_items _ _ _ _ n HL) as HF. unfold r_read_file, read_file. destruct HS' as (HE & _). rewrite HE.
      destruct (find_entry (directory_map (dir ps)) n) as [en|] eqn:EF.
      - destruct HF as (b & cb & _ & HF). rewrite resolve_files in HF.
        destruct (resolve items n) eqn:ER; [|discriminate]. exfalso.
        assert (In n names \/ In (n ++ str ".npy") names) as [|]; [|contradiction..]. apply resolve_some. eauto.
      - unfold lift. rewrite <- HE. now destruct r'. }
    unfold r_read, r_peek. now rewrite HRF.
  - intros Hn. destruct (r_contains r' n) eqn:EC; [|reflexivity]. pose proof (proj1 HC eq_refl) as EC'. clear EC. rename EC' into EC. exfalso. apply Hn.
    unfold names in EC. apply in_map_iff in EC as (p & <- & _). rewrite <- archive_name_npy. apply C38_names_normalised.
Qed.
Print Assumptions C37_lookup.

(** *** C47 *)
Theorem C47_peek_and_read_decode_the_saved_bytes : forall v v2 c m e items a r r' n t g,
  archive v c m e items a -> Forall (unpacks c m v e v2) items ->
  (forall k u b, In (k, u) items -> save v u e = Ok b -> len b <= mem v2) ->
  opened a r -> reader_after v2 c r r' -> resolve items n = Some t ->
  exists b r'', save v t e = Ok b /\
    (let '(o, _, g') := peek v2 (open_str b) g in r_peek v2 c r' n g = (o, r'', g')) /\
    (forall d, let '(o, _, g') := load v2 d (open_str b) g in r_read v2 c d r' n g = (o, r'', g')).
Proof.
  intros v v2 c m e items a r r' n t g HA HU HM Hop Haf HR. destruct (archive_ps _ _ _ _ _ _ HA) as (ps & HL & _ & HO & _).
  destruct (HO r Hop) as [HS HK].
  pose proof (archive_reads v v2 c m e items ps r r' n (proj1 HA)) as H.
  specialize (H ltac:(intros k u Hin; left; eapply HM; [exact Hin|apply file_of_save]) HU HL HS Haf). rewrite HR in H.
  destruct H as (r'' & H). exists (file_of v e t), r''. split; [apply file_of_save|]. split.
  - destruct (peek v2 (open_str (file_of v e t)) g) as [[o s] g'] eqn:E. unfold r_peek. rewrite H, E. reflexivity.
  - intros d. destruct (load v2 d (open_str (file_of v e t)) g) as [[o s] g'] eqn:E. unfold r_read. rewrite H, E. reflexivity.
Qed.
Print Assumptions C47_peek_and_read_decode_the_saved_bytes.
Example C47_case : Forall (unpacks (mk_codec Ok Ok) DEFLATED case_env BIG case_env) case_items /\
  (forall k u b, In (k, u) case_items -> save case_env u BIG = Ok b -> len b <= mem case_env).
Proof.
  destruct C35_case as (_ & HL & _). split.
  - apply Forall_forall. intros p Hp b cb Hb [= <-]. left. split; [reflexivity|].
    eapply Forall_forall in HL; [|exact Hp]. now apply HL.
  - intros k u b Hin Hb. eapply Forall_forall in HL; [|exact Hin]. now apply HL.
Qed.
