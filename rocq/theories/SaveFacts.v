(** Facts about save and load of whole arrays. *)
From Coq Require Import String ZArith List Bool Lia.
From Verif Require Import Base Stream BaseFacts Dtype Values Spec ValuesFacts PropValues Header HeaderFacts
  ParseFacts ParserInv ParserRel NpyFacts Tensor Npy TensorFacts.
Import ListNotations.
Open Scope Z_scope.

(** Writing one element; [m] is the length strings are padded to. *)
Definition enc (v : env) (d : dtype) (e : endian) (m : Z) (x : elem) : bytes :=
  if is_string d then write_wstr v e m x
  else if raw_type d || is_native v e then elem_image v d x else rev (elem_image v d x).

Lemma write_values_enc v d e es : write_values v d e es = flat_map (enc v d e (longest es)) es.
Proof.
  destruct (is_string d) eqn:Hs.
  - unfold write_values, enc. rewrite Hs, max_length_longest. reflexivity.
  - rewrite write_values_fixed by exact Hs. apply flat_map_ext_in. intros x _. unfold enc. now rewrite Hs.
Qed.

Definition short (m : Z) (es : list elem) : Prop :=
  Forall (fun e => match e with WStr cs => len cs <= m | _ => True end) es.

Lemma enc_length v d e m es x : values_ok d es -> short m es -> In x es -> 0 <= m ->
  len (enc v d e m x) = match d with UNICODE_STRING => 4 * m | _ => file_item_size d end.
Proof.
  intros Hv Hs Hx Hm. assert (elem_ok d x) as Ho by (eapply Forall_forall in Hv; eauto).
  unfold enc. destruct (is_string d) eqn:Ed.
  - destruct d; try discriminate. eapply Forall_forall in Hs; eauto. cbv beta in Hs.
    destruct x as [y|a b|cs]; cbn in Ho.
    + destruct Ho as (_ & _ & H & _). congruence.
    + destruct Ho as ([H|H] & _); discriminate.
    + cbn [write_wstr]. lens. rewrite (len_flat_map _ _ 4%nat).
      * lia.
      * apply Forall_forall. intros. apply unit_bytes_length.
  - assert (len (elem_image v d x) = item_size d) as HL.
    { unfold len. rewrite elem_image_length by auto. destruct d; reflexivity. }
    assert (item_size d = match d with UNICODE_STRING => 4 * m | _ => file_item_size d end) as <-
      by (destruct d; try discriminate; reflexivity).
    destruct (raw_type d || is_native v e); lens; exact HL.
Qed.

Lemma image_host v1 v2 k x : host_big v1 = host_big v2 -> image v1 k x = image v2 k x.
Proof. intros H. unfold image. now rewrite H. Qed.
Lemma elem_image_host v1 v2 d x : host_big v1 = host_big v2 -> elem_image v1 d x = elem_image v2 d x.
Proof. intros H. destruct x; cbn [elem_image]; rewrite ?(image_host v1 v2) by exact H; reflexivity. Qed.

(** Element images under another host, with the recorded endianness. *)
Lemma enc_moves v1 v2 d e m x : is_string d = false -> elem_ok d x ->
  (is_complex_type d -> host_big v1 = host_big v2) ->
  enc v1 d e m x = enc v2 d (recorded_order d (means_big (host_big v1) e)) m x.
Proof.
  intros Hs Ho Hc. unfold enc. rewrite Hs.
  destruct (is_complex d) eqn:Ec.
  - assert (is_complex_type d) as HT by (destruct d; try discriminate; [left|right]; reflexivity).
    specialize (Hc HT). rewrite (elem_image_host v1 v2) by exact Hc.
    assert (raw_type d || is_native v1 e
      = raw_type d || is_native v2 (recorded_order d (means_big (host_big v1) e))) as ->; [|reflexivity].
    rewrite !is_native_big, <- Hc. unfold recorded_order.
    destruct d; try discriminate; cbn; destruct e, (host_big v1); reflexivity.
  - etransitivity; [exact (scalar_image_standard v1 e d x Hs Ho Ec)|].
    etransitivity; [|symmetry; exact (scalar_image_standard v2 (recorded_order d (means_big (host_big v1) e)) d x Hs Ho Ec)].
    destruct (width d =? 1)%nat eqn:W.
    + destruct (elem_ok_string _ _ Hs Ho) as [(y & -> & _)|(a & b & _ & Hc2 & _)]; [|congruence].
      cbn [standard]. apply Nat.eqb_eq in W. rewrite W. unfold ordered, digits256. cbn.
      destruct (means_big (host_big v1) e), (means_big (host_big v2) (recorded_order d _)); reflexivity.
    + f_equal. unfold recorded_order. rewrite W. destruct (means_big (host_big v1) e); reflexivity.
Qed.

Lemma read_enc v1 v2 d e m es s r :
  values_ok d es -> short m es -> (is_complex_type d -> host_big v1 = host_big v2) ->
  good s = true -> rest s = flat_map (enc v1 d e m) es ++ r ->
  read_values v2 d (recorded_order d (means_big (host_big v1) e)) m (len es) s
    = (map drop_nuls es, set_rest s r).
Proof.
  intros Hv Hm Hc G R. destruct (is_string d) eqn:Hs.
  - destruct d; try discriminate. unfold read_values. cbn [is_string].
    replace (Z.to_nat (len es)) with (length es) by (unfold len; lia).
    apply (read_wstrs_app v1 v2 e); auto.
    cbn. destruct (means_big (host_big v1) e); reflexivity.
  - set (e' := recorded_order d _).
    assert (map drop_nuls es = es) as ->.
    { clear -Hv Hs. induction Hv as [|x es Hx Hv IH]; [reflexivity|]. cbn [map]. rewrite IH. f_equal.
      destruct x; try reflexivity. destruct Hx as [-> _]. discriminate. }
    assert (read_values v2 d e' m (len es) s = read_values v2 d e' 0 (len es) s) as ->.
    { unfold read_values. now rewrite Hs. }
    apply read_values_images; auto. rewrite R. f_equal.
    transitivity (flat_map (enc v2 d e' m) es).
    + apply flat_map_ext_in. intros x Hx. apply enc_moves; auto. eapply Forall_forall in Hv; eauto.
    + unfold enc. rewrite Hs. destruct (raw_type d || is_native v2 e'); reflexivity.
Qed.

(** *** save always succeeds, with this file. *)
Lemma dims_of_ok t n i : 0 <= i -> (Z.to_nat i + n = length (t_shape t))%nat ->
  dims_of t n i = Ok (skipn (Z.to_nat i) (t_shape t)).
Proof.
  revert i. induction n as [|n IH]; intros i Hi HL; cbn [dims_of].
  - now rewrite skipn_all2 by lia.
  - unfold t_dim. destruct (znth_in_range _ (t_shape t) i) as [x Hx]; [unfold len; lia|].
    rewrite Hx. cbn [obind]. rewrite IH by lia. cbn [obind]. f_equal.
    unfold znth in Hx. destruct (i <? 0) eqn:E; [lia|].
    replace (Z.to_nat (i + 1)) with (S (Z.to_nat i)) by lia.
    clear -Hx. revert Hx. generalize (Z.to_nat i). intros k. revert k.
    induction (t_shape t) as [|y l IH]; intros [|k] H; cbn in H |- *; try discriminate; [congruence|]. now apply IH.
Qed.

Lemma array_descr_denotes d big es : longest es <= 2147483647 ->
  descr_denotes (array_descr d big es) d (recorded_order d big)
    (match d with UNICODE_STRING => longest es | _ => 0 end).
Proof.
  intros H. destruct (longest_bounds es) as [H0 _].
  destruct d; try (apply (denotes_fixed _ big); discriminate).
  unfold array_descr. replace (recorded_order UNICODE_STRING big) with (if big then BIG else LITTLE) by reflexivity.
  apply denotes_string. lia.
Qed.

Lemma save_file v t e : save v t e =
  Ok (write_npy_header (array_descr (t_dtype t) (means_big (host_big v) e) (t_values t)) (t_fortran t) (t_shape t)
      ++ write_values v (t_dtype t) e (t_values t)).
Proof.
  unfold save. rewrite (dims_of_ok t) by (change (Z.to_nat 0) with 0%nat; lia). cbn [obind Z.to_nat skipn].
  unfold tensor_dtype. destruct (is_string (t_dtype t)) eqn:Hs.
  - destruct (t_dtype t); try discriminate. cbn [obind]. do 2 f_equal. f_equal. unfold array_descr.
    rewrite max_length_longest. f_equal. unfold native_endian. destruct e; cbn; destruct (host_big v); reflexivity.
  - destruct (C01_dtype_strings_round_trip v (t_dtype t) e) as [_ H].
    destruct (t_dtype t); try discriminate; destruct H as [H _]; try discriminate; rewrite H; reflexivity.
Qed.

(** *** reading with a complete header *)
Lemma tensor_load_complete v d e f sh n s :
  get_size sh * item_size d <= mem v ->
  tensor_load v d (mk_header (Some d) (Some e) (Some f) sh (Some n)) s =
    let e' := if raw_type d then NATIVE else e in
    let m := if is_string d then n else 0 in
    (Ok (mk_tensor sh (get_ravel_strides sh f) f d (fst (read_values v d e' m (get_size sh) s))),
     snd (read_values v d e' m (get_size sh) s)).
Proof.
  intros HM. unfold tensor_load. cbn [h_fortran h_dtype h_shape h_endian h_maxlen field obind].
  unfold make_tensor. destruct (get_size sh * item_size d >? mem v) eqn:E; [lia|]. cbn [obind].
  assert (dtype_eqb d d = true) as -> by (destruct d; reflexivity).
  assert (t_size (mk_tensor sh (get_ravel_strides sh f) f d (zrepeat (zero_elem d) (get_size sh))) = get_size sh) as ->.
  { unfold t_size. cbn [t_values]. rewrite len_zrepeat, get_size_product.
    pose proof (Z.mod_pos_bound (product sh) (2 ^ 64) ltac:(lia)). lia. }
  destruct (raw_type d), (is_string d); cbn [obind t_shape t_strides t_fortran t_dtype];
    match goal with |- context [read_values ?a ?b ?c ?d ?e ?f] => destruct (read_values a b c d e f) end; reflexivity.
Qed.
Lemma raw_order d big : raw_type d = true -> recorded_order d big = NATIVE.
Proof. destruct d; try discriminate; reflexivity. Qed.

Lemma load_written_header v1 v2 t e s g d tail : tensor_wf t -> prior_parses g -> good s = true ->
  save_fits v1 t e -> 246 <= mem v2 ->
  rest s = write_npy_header (array_descr (t_dtype t) (means_big (host_big v1) e) (t_values t)) (t_fortran t) (t_shape t) ++ tail ->
  exists g', prior_parses g' /\
    load v2 d s g = (tensor_load v2 d (mk_header (Some (t_dtype t)) (Some (recorded_order (t_dtype t) (means_big (host_big v1) e)))
       (Some (t_fortran t)) (t_shape t) (Some (match t_dtype t with UNICODE_STRING => longest (t_values t) | _ => 0 end))) (set_rest s tail), g').
Proof.
  intros (Hs & _) Hg G [HF HL] HM R. unfold load.
  destruct (read_header_written v2 s g _ _ _ _ (t_fortran t) (t_shape t) tail (prior_map_ok _ Hg) G
     (array_descr_denotes (t_dtype t) (means_big (host_big v1) e) (t_values t) HL) Hs HF HM R) as (g' & H & body & Hg').
  exists g'. split; [subst; now constructor|]. rewrite H.
  match goal with |- context [tensor_load ?a ?b ?c ?x] => destruct (tensor_load a b c x) end. reflexivity.
Qed.

Lemma load_saved v1 v2 t e s g tail : tensor_wf t -> prior_parses g -> good s = true ->
  save_fits v1 t e -> room v2 t ->
  (is_complex_type (t_dtype t) -> host_big v1 = host_big v2) ->
  (exists file, save v1 t e = Ok file /\ rest s = file ++ tail) ->
  exists g', prior_parses g' /\ load v2 (t_dtype t) s g =
   (Ok (mk_tensor (t_shape t) (t_strides t) (t_fortran t) (t_dtype t) (map drop_nuls (t_values t))), set_rest s tail, g').
Proof.
  intros Hw Hg G HF [HM1 HM2] HC (file & HS & R). rewrite save_file in HS. injection HS as <-.
  rewrite <- app_assoc in R.
  destruct (load_written_header v1 v2 t e s g (t_dtype t) _ Hw Hg G HF HM1 R) as (g' & Hg' & HL).
  exists g'. split; [exact Hg'|]. rewrite HL.
  destruct Hw as (Hs & Hst & Hsz & Hv).
  assert (get_size (t_shape t) = t_size t) as HG by (now rewrite get_size_product).
  rewrite tensor_load_complete by (rewrite HG; exact HM2). cbv zeta. rewrite HG.
  set (big := means_big (host_big v1) e) in *.
  assert (read_values v2 (t_dtype t) (if raw_type (t_dtype t) then NATIVE else recorded_order (t_dtype t) big)
    (if is_string (t_dtype t) then match t_dtype t with UNICODE_STRING => longest (t_values t) | _ => 0 end else 0)
    (t_size t) (set_rest s (write_values v1 (t_dtype t) e (t_values t) ++ tail))
    = (map drop_nuls (t_values t), set_rest s tail)) as ->.
  { replace (if raw_type (t_dtype t) then NATIVE else recorded_order (t_dtype t) big) with (recorded_order (t_dtype t) big)
      by (destruct (raw_type (t_dtype t)) eqn:ER; [now apply raw_order|reflexivity]).
    pose proof (read_enc v1 v2 (t_dtype t) e (longest (t_values t)) (t_values t)
      (set_rest s (write_values v1 (t_dtype t) e (t_values t) ++ tail)) tail Hv (proj2 (longest_bounds _)) HC G) as HR.
    rewrite write_values_enc in *. specialize (HR eq_refl). rewrite set_rest_set_rest in HR.
    rewrite <- HR. unfold t_size. fold big. unfold read_values. destruct (t_dtype t); reflexivity. }
  cbn [fst snd]. now rewrite <- Hst.
Qed.

(** *** Reading a stream that ends early, through calls of GETC. *)
Definition padded (s s' : istream) (m : nat) : Prop :=
  good s' = true /\ rest s' = (if good s then rest s else []) ++ repeat 255 m.

Lemma sget_padded s s' m : padded s s' m -> rest s' <> [] ->
  (let c := fst (sget s) in (if c =? -1 then 255 else c)) =
  (let c := fst (sget s') in (if c =? -1 then 255 else c)) /\
  (exists m', padded (snd (sget s)) (snd (sget s')) m') /\
  S (length (rest (snd (sget s')))) = length (rest s').
Proof.
  intros [G' R'] HN. unfold sget. rewrite G'.
  destruct (good s) eqn:G.
  - destruct (rest s) as [|c r] eqn:E.
    + destruct m as [|m]; [cbn in R'; congruence|]. rewrite R'. cbn [app repeat fst snd Z.eqb].
      split; [reflexivity|]. split.
      * exists m. split; [exact G'|]. unfold good. cbn [eofb failb set_fail set_eof set_rest rest].
        now rewrite andb_false_r.
      * reflexivity.
    + rewrite R'. cbn [app fst snd]. split; [reflexivity|]. split.
      * exists m. split; [exact G'|]. rewrite good_set_rest, G. reflexivity.
      * reflexivity.
  - destruct m as [|m]; [cbn in R'; congruence|]. rewrite R'. cbn [app repeat fst snd Z.eqb].
    split; [reflexivity|]. split.
    + exists m. split; [exact G'|]. unfold good. cbn [failb set_fail]. now rewrite andb_false_r.
    + reflexivity.
Qed.
Lemma getc_n_padded k : forall s s' m, padded s s' m -> (k <= length (rest s'))%nat ->
  fst (getc_n k s) = fst (getc_n k s') /\
  (exists m', padded (snd (getc_n k s)) (snd (getc_n k s')) m') /\
  (length (rest (snd (getc_n k s'))) + k = length (rest s'))%nat.
Proof.
  induction k as [|k IH]; intros s s' m HP HL; cbn [getc_n].
  - split; [reflexivity|]. split; [exists m; exact HP|]. cbn. lia.
  - destruct (sget_padded s s' m HP) as (H1 & (m1 & H2) & H3); [intros E; rewrite E in HL; cbn in HL; lia|].
    destruct (sget s) as [c s1], (sget s') as [c' s1']. cbn [fst snd] in *.
    destruct (IH s1 s1' m1 H2 ltac:(lia)) as (H4 & (m2 & H5) & H6).
    destruct (getc_n k s1) as [r s2], (getc_n k s1') as [r' s2']. cbn [fst snd] in *.
    split; [congruence|]. split; [exists m2; exact H5|lia].
Qed.
Lemma read_swapped_padded k n : forall s s' m, padded s s' m -> (n * k <= length (rest s'))%nat ->
  fst (read_swapped k n s) = fst (read_swapped k n s').
Proof.
  induction n as [|n IH]; intros s s' m HP HL; cbn [read_swapped]; [reflexivity|].
  destruct (getc_n_padded k s s' m HP ltac:(cbn in HL; lia)) as (H4 & (m2 & H5) & H6).
  destruct (getc_n k s) as [b s1], (getc_n k s') as [b' s1']. cbn [fst snd] in *.
  specialize (IH s1 s1' m2 H5 ltac:(cbn in HL; lia)).
  destruct (read_swapped k n s1), (read_swapped k n s1'). cbn [fst] in *. congruence.
Qed.
Lemma read_wstr_padded v e j : forall s s' m, padded s s' m -> (j * 4 <= length (rest s'))%nat ->
  fst (read_wstr v e j s) = fst (read_wstr v e j s') /\
  (exists m', padded (snd (read_wstr v e j s)) (snd (read_wstr v e j s')) m') /\
  (length (rest (snd (read_wstr v e j s'))) + j * 4 = length (rest s'))%nat.
Proof.
  induction j as [|j IH]; intros s s' m HP HL; cbn [read_wstr].
  - split; [reflexivity|]. split; [exists m; exact HP|]. cbn. lia.
  - destruct (getc_n_padded 4 s s' m HP ltac:(lia)) as (H4 & (m2 & H5) & H6).
    destruct (getc_n 4 s) as [b s1], (getc_n 4 s') as [b' s1']. cbn [fst snd] in *. subst b'.
    destruct (IH s1 s1' m2 H5 ltac:(lia)) as (H7 & (m3 & H8) & H9).
    destruct (read_wstr v e j s1) as [r s2], (read_wstr v e j s1') as [r' s2']. cbn [fst snd] in *. subst r'.
    split; [reflexivity|]. split; [exists m3; exact H8|lia].
Qed.
Lemma read_wstrs_padded v e j n : forall s s' m, padded s s' m -> (n * (j * 4) <= length (rest s'))%nat ->
  fst (read_wstrs v e j n s) = fst (read_wstrs v e j n s').
Proof.
  induction n as [|n IH]; intros s s' m HP HL; cbn [read_wstrs]; [reflexivity|].
  destruct (read_wstr_padded v e j s s' m HP ltac:(cbn in HL; lia)) as (H4 & (m2 & H5) & H6).
  destruct (read_wstr v e j s) as [b s1], (read_wstr v e j s') as [b' s1']. cbn [fst snd] in *.
  specialize (IH s1 s1' m2 H5 ltac:(cbn in HL; lia)).
  destruct (read_wstrs v e j n s1), (read_wstrs v e j n s1'). cbn [fst] in *. congruence.
Qed.

(** Bytes stored per element in a stream. *)
Definition stored (d : dtype) (m : Z) : Z := if is_string d then 4 * m else item_size d.
(** The byte that stands for a missing one. *)
Definition filler (v : env) (d : dtype) (e : endian) : Z :=
  if is_string d then 255 else if raw_type d || is_native v e then 0 else 255.

Lemma read_values_cut v d e m n s s' fill : 0 <= n -> 0 <= m -> good s = true -> good s' = true ->
  rest s' = rest s ++ zrepeat (filler v d e) fill -> 0 <= fill -> len (rest s') = n * stored d m ->
  fst (read_values v d e m n s) = fst (read_values v d e m n s').
Proof.
  intros Hn Hm G G' R HF HL. unfold read_values, filler, stored in *.
  destruct (is_string d).
  - eapply read_wstrs_padded with (m := Z.to_nat fill).
    + split; [exact G'|]. rewrite G. exact R.
    + unfold len in HL. nia.
  - assert (0 < item_size d) as Hk by (destruct d; cbn; lia).
    destruct (raw_type d || is_native v e).
    + unfold sread. rewrite G, G'. set (N := n * item_size d) in *.
      assert (len (rest s) + fill = N) as HL2 by (rewrite R in HL; lens; lia).
      rewrite (ztake_all _ N (rest s')) by lia. rewrite (ztake_all _ N (rest s)) by lia.
      cbv zeta. rewrite HL, Z.ltb_irrefl.
      rewrite HL. rewrite (zrepeat_0 _ _ (N - N)) by lia. rewrite app_nil_r.
      replace (N - len (rest s)) with fill by lia. rewrite R.
      assert (fill = N - len (rest s)) as HFill by lia.
      destruct (len (rest s) <? N); cbn [fst]; rewrite <- ?HFill; reflexivity.
    + assert (fst (read_swapped (Z.to_nat (item_size d)) (Z.to_nat n) s) = fst (read_swapped (Z.to_nat (item_size d)) (Z.to_nat n) s')) as HE.
      { eapply read_swapped_padded with (m := Z.to_nat fill).
        - split; [exact G'|]. rewrite G. exact R.
        - unfold len in HL. nia. }
      destruct (read_swapped _ _ s), (read_swapped _ _ s'). cbn [fst] in *. now subst.
Qed.

(** The first elements read do not depend on how many are read. *)
Lemma read_swapped_split k a b : forall s,
  fst (read_swapped k (a + b) s) =
  fst (read_swapped k a s) ++ fst (read_swapped k b (snd (read_swapped k a s))).
Proof.
  induction a as [|a IH]; intros s; [reflexivity|]. cbn [Nat.add read_swapped].
  destruct (getc_n k s) as [x s1]. specialize (IH s1).
  destruct (read_swapped k (a + b) s1), (read_swapped k a s1). cbn [fst snd] in *. subst. now rewrite app_assoc.
Qed.
Lemma read_wstrs_prefix v e m a b : forall s,
  firstn a (fst (read_wstrs v e m (a + b) s)) = fst (read_wstrs v e m a s).
Proof.
  induction a as [|a IH]; intros s; [reflexivity|]. cbn [Nat.add read_wstrs].
  destruct (read_wstr v e m s) as [x s1]. specialize (IH s1).
  destruct (read_wstrs v e m (a + b) s1), (read_wstrs v e m a s1). cbn [fst firstn] in *. now subst.
Qed.
Lemma chunks_prefix k a b : forall l l', firstn (a * k) l = firstn (a * k) l' ->
  firstn a (chunks k (a + b) l) = chunks k a l'.
Proof.
  induction a as [|a IH]; intros l l' H; [reflexivity|]. cbn [Nat.add chunks firstn].
  cbn [Nat.mul] in H. f_equal.
  - apply (f_equal (firstn k)) in H. rewrite !firstn_firstn in H. now rewrite !Nat.min_l in H by lia.
  - apply IH. rewrite !firstn_skipn_comm. now rewrite H.
Qed.
Lemma firstn_app_eq {A} n (a b : list A) : length a = n -> firstn n (a ++ b) = a.
Proof. intros <-. rewrite firstn_app, Nat.sub_diag, firstn_all. cbn. apply app_nil_r. Qed.
Lemma getc_n_length k : forall s, length (fst (getc_n k s)) = k.
Proof.
  induction k as [|k IH]; intros s; cbn [getc_n]; [reflexivity|]. destruct (sget s) as [c s1].
  specialize (IH s1). destruct (getc_n k s1). cbn [fst length] in *. congruence.
Qed.
Lemma read_swapped_length k n : forall s, length (fst (read_swapped k n s)) = (n * k)%nat.
Proof.
  induction n as [|n IH]; intros s; cbn [read_swapped]; [reflexivity|].
  pose proof (getc_n_length k s) as H. destruct (getc_n k s) as [c s1].
  specialize (IH s1). destruct (read_swapped k n s1). cbn [fst] in *. rewrite app_length, rev_length. lia.
Qed.
Lemma read_values_prefix v d e m n k s : 0 <= k <= n -> good s = true -> k * stored d m <= len (rest s) ->
  firstn (Z.to_nat k) (fst (read_values v d e m n s)) = fst (read_values v d e m k s).
Proof.
  intros Hk G HL. unfold read_values, stored in *.
  replace (Z.to_nat n) with (Z.to_nat k + (Z.to_nat n - Z.to_nat k))%nat by lia.
  destruct (is_string d); [apply read_wstrs_prefix|].
  set (K := item_size d) in *. assert (0 < K) as HK by (subst K; destruct d; cbn; lia).
  destruct (raw_type d || is_native v e).
  - unfold sread. rewrite G.
    assert (forall N, fst (let (got, s') := (let got := ztake N (rest s) in
       let s' := set_rest s (zdrop N (rest s)) in
       if len got <? N then (got, set_fail (set_eof s')) else (got, s')) in
       let buf := got ++ zrepeat 0 (N - len got) in (buf, s')) = ztake N (rest s) ++ zrepeat 0 (N - len (ztake N (rest s)))) as HX
      by (intros N; cbv zeta; destruct (len (ztake N (rest s)) <? N); reflexivity).
    cbv zeta in *.
    destruct (len (ztake (n * K) (rest s)) <? n * K); destruct (len (ztake (k * K) (rest s)) <? k * K);
      cbn [fst]; rewrite firstn_map; f_equal; apply chunks_prefix;
      rewrite !ztake_firstn;
      (replace (Z.to_nat (k * K)) with (Z.to_nat k * Z.to_nat K)%nat by nia);
      (replace (Z.to_nat (n * K)) with (Z.to_nat n * Z.to_nat K)%nat by nia);
      rewrite !firstn_app, !firstn_firstn, !firstn_length;
      unfold len in HL;
      rewrite !Nat.min_l by nia;
      rewrite !(proj2 (Nat.sub_0_le _ _)) by nia; rewrite ?Nat.min_id; reflexivity.
  - rewrite firstn_map || idtac.
    pose proof (read_swapped_split (Z.to_nat K) (Z.to_nat k) (Z.to_nat n - Z.to_nat k) s) as HS.
    pose proof (read_swapped_length (Z.to_nat K) (Z.to_nat k) s) as HLn.
    destruct (read_swapped (Z.to_nat K) (Z.to_nat k + (Z.to_nat n - Z.to_nat k)) s) as [b1 s1].
    destruct (read_swapped (Z.to_nat K) (Z.to_nat k) s) as [b2 s2]. cbn [fst snd] in *.
    rewrite firstn_map. f_equal. apply chunks_prefix. rewrite HS.
    rewrite firstn_app_eq by exact HLn. rewrite <- HLn. now rewrite firstn_all.
Qed.

Lemma app_eq_len {A} (a b c d : list A) : a ++ b = c ++ d -> len b = len d -> a = c /\ b = d.
Proof.
  intros H HL. assert (length a = length c) as HL2.
  { apply (f_equal (@length A)) in H. rewrite !app_length in H. unfold len in HL. lia. }
  revert c H HL2. induction a as [|x a IH]; intros [|y c] H HL2; cbn in *; try discriminate; [auto|].
  injection H as -> H. destruct (IH c H ltac:(lia)) as [-> ->]. auto.
Qed.
Lemma firstn_In {A} n (l : list A) x : In x (firstn n l) -> In x l.
Proof. intros H. rewrite <- (firstn_skipn n l). apply in_or_app. now left. Qed.
Lemma read_wstrs_length v e m n : forall s, length (fst (read_wstrs v e m n s)) = n.
Proof.
  induction n as [|n IH]; intros s; cbn [read_wstrs]; [reflexivity|]. destruct (read_wstr v e m s) as [x s1].
  specialize (IH s1). destruct (read_wstrs v e m n s1). cbn [fst length] in *. congruence.
Qed.
Lemma read_values_count v d e m n s : 0 <= n -> len (fst (read_values v d e m n s)) = n.
Proof.
  intros Hn. unfold read_values, len. destruct (is_string d); [rewrite read_wstrs_length; lia|].
  destruct (raw_type d || is_native v e).
  - destruct (sread _ s). cbn [fst]. rewrite map_length, chunks_length. lia.
  - destruct (read_swapped _ _ s). cbn [fst]. rewrite map_length, chunks_length. lia.
Qed.
