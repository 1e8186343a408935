(** Properties C26-C31: whole NPY files. *)
From Coq Require Import String ZArith List Bool Lia.
From Verif Require Import Base Stream BaseFacts Dtype Values Spec ValuesFacts PropValues Header HeaderFacts
  ParseFacts ParserInv ParserRel NpyFacts Tensor Npy TensorFacts PropTensor SaveFacts.
Import ListNotations.
Open Scope Z_scope.

(** *** C26.  [v1] writes and [v2] reads, from any stream at any place. *)
Theorem C26_save_load_round_trip : forall v1 v2 t e,
  api_tensor t -> save_fits v1 t e -> room v2 t -> same_host_if_complex v1 v2 t ->
  Forall no_nuls (t_values t) ->
  exists file, save v1 t e = Ok file /\
  forall s g tail, good s = true -> prior_parses g -> rest s = file ++ tail ->
    exists g', load v2 (t_dtype t) s g = (Ok t, set_rest s tail, g') /\ prior_parses g'.
Proof.
  intros v1 v2 t e Ht HF HR HC HN. eexists. split; [apply save_file|]. intros s g tail G Hg R.
  destruct (load_saved v1 v2 t e s g tail (api_tensor_wf _ Ht) Hg G HF HR HC) as (g' & Hg' & HL).
  { eexists. split; [apply save_file|exact R]. }
  exists g'. split; [|exact Hg']. rewrite HL, drop_nuls_id by exact HN. now destruct t.
Qed.
Print Assumptions C26_save_load_round_trip.
(** What the file is: header text as numpy writes it, then standard data. *)
Theorem C26_file_contents : forall v t e,
  api_tensor t -> save_fits v t e ->
  (is_complex_type (t_dtype t) -> means_big (host_big v) e = host_big v) ->
  let big := means_big (host_big v) e in
  let dict := python_dict (array_descr (t_dtype t) big (t_values t)) (t_fortran t) (t_shape t) in
  exists lo hi spaces data,
    save v t e = Ok ([147; 78; 85; 77; 80; 89; 1; 0; lo; hi] ++ dict ++ spaces ++ [10] ++ data) /\
    Forall (fun c => c = 32) spaces /\ lo + 256 * hi = len (dict ++ spaces ++ [10]) /\
    (10 + lo + 256 * hi) mod 64 = 0 /\
    data = flat_map (fun x => let b := standard big (t_dtype t) x in
             b ++ zrepeat 0 (array_item (t_dtype t) (t_values t) - len b)) (t_values t).
Proof.
  intros v t e Ht [HF HL] HC big dict. pose proof (api_tensor_wf _ Ht) as (Hs & _ & _ & Hv).
  destruct (write_npy_header_shape (array_descr (t_dtype t) big (t_values t)) (t_fortran t) (t_shape t)) as (pad & Hp & Hmod & HW).
  rewrite (dictionary_python _ _ _ Hs) in HW, Hmod. fold big in HF. fold dict in HW, Hmod, HF.
  pose proof (len_nonneg _ dict) as HD0.
  assert (len dict + pad + 1 < 256) as HB.
  { apply Z.mod_divide in Hmod; [|lia]. destruct Hmod as [k Hk]. lia. }
  exists (u8 (len dict + pad + 1)), 0, (zrepeat 32 pad), (write_values v (t_dtype t) e (t_values t)).
  assert (u8 (len dict + pad + 1) = len dict + pad + 1) as HU by (unfold u8; apply Z.mod_small; lia).
  split. { rewrite save_file. fold big. rewrite HW. now rewrite <- !app_assoc. }
  split; [unfold zrepeat; apply Forall_forall; intros x Hx; now apply repeat_spec in Hx|].
  rewrite HU. split; [lens; lia|]. split.
  { match goal with |- ?x mod 64 = 0 => replace x with (10 + (len dict + pad + 1)) by lia end. exact Hmod. }
  rewrite write_values_enc. apply flat_map_ext_in. intros x Hx.
  assert (elem_ok (t_dtype t) x) as Ho by (eapply Forall_forall in Hv; eauto).
  pose proof (enc_length v (t_dtype t) e (longest (t_values t)) _ x Hv (proj2 (longest_bounds _)) Hx (proj1 (longest_bounds _))) as HE.
  cbv zeta.
  assert (is_string (t_dtype t) = false -> enc v (t_dtype t) e (longest (t_values t)) x = standard big (t_dtype t) x) as H1.
  { intros Es. unfold enc. rewrite Es. destruct (is_complex (t_dtype t)) eqn:Ec.
    - etransitivity; [exact (complex_image_standard v e _ x Ec Ho)|].
      assert (is_native v e = true) as ->; [|reflexivity].
      rewrite is_native_big. rewrite HC by (unfold is_complex_type; destruct (t_dtype t); try discriminate; auto).
      now rewrite Bool.eqb_reflx.
    - exact (scalar_image_standard v e _ x Es Ho Ec). }
  destruct (is_string (t_dtype t)) eqn:Es.
  - clear H1. destruct (t_dtype t); try discriminate. unfold enc, array_item. cbn [is_string].
    destruct x as [y|a b|cs]; cbn in Ho.
    + destruct Ho as (_ & _ & H & _). congruence.
    + destruct Ho as ([H|H] & _); discriminate.
    + cbn [write_wstr standard]. destruct Ho as [_ Hcs].
      assert (flat_map (unit_bytes v e) cs = flat_map (ordered big 4) cs) as ->.
      { apply flat_map_ext_in. intros c Hc. apply unit_bytes_order. eapply Forall_forall in Hcs; eauto. unfold fits in Hcs. lia. }
      f_equal. f_equal. rewrite (len_flat_map _ _ 4%nat) by (apply Forall_forall; intros; apply ordered_length). lia.
  - rewrite H1 in * by reflexivity. unfold array_item. rewrite HE.
    rewrite zrepeat_0, app_nil_r by (destruct (t_dtype t); lia). reflexivity.
Qed.
Print Assumptions C26_file_contents.

Definition case_tensor : tensor :=
  match make_tensor case_env UNICODE_STRING [2; 1] true with
  | Ok t => snd (copy_from t [WStr [0x41; 0x1F600]; WStr []])
  | _ => mk_tensor [] [] false INT8 []
  end.
Lemma case_tensor_api : api_tensor case_tensor.
Proof.
  unfold case_tensor. destruct (make_tensor case_env UNICODE_STRING [2; 1] true) eqn:E; try (vm_compute in E; discriminate).
  apply by_copy.
  - eapply by_ctor; [|exact E]. repeat constructor; unfold max64; lia.
  - vm_compute in E. injection E as <-. cbn [t_dtype].
    constructor; [split; [reflexivity|]|constructor; [split; [reflexivity|constructor]|constructor]].
    repeat constructor; lia.
Qed.
Example C26_case : api_tensor case_tensor /\ save_fits case_env case_tensor BIG /\ room case_env case_tensor /\
  same_host_if_complex case_env case_env case_tensor /\ Forall no_nuls (t_values case_tensor) /\
  t_values case_tensor = [WStr [0x41; 0x1F600]; WStr []].
Proof.
  split; [exact case_tensor_api|]. split; [split; vm_compute; discriminate|]. split; [split; vm_compute; discriminate|].
  split; [intros _; reflexivity|]. split; [|reflexivity].
  repeat constructor; lia.
Qed.
(** Without the complex proviso it fails. *)
Theorem C26_complex_across_hosts_refuted : ~ (forall v1 v2 t e file,
  api_tensor t -> save_fits v1 t e -> room v2 t -> Forall no_nuls (t_values t) -> save v1 t e = Ok file ->
  fst (fst (load v2 (t_dtype t) (open_str file) (zrepeat 0 65536, DTYPE_MAP))) = Ok t).
Proof.
  intros H.
  set (t := mk_tensor [1] [1] false COMPLEX64 [Cplx 1 2]).
  assert (api_tensor t) as Ht.
  { destruct (make_tensor case_env COMPLEX64 [1] false) eqn:E; try (vm_compute in E; discriminate).
    replace t with (snd (copy_from a [Cplx 1 2])) by (vm_compute in E; injection E as <-; vm_compute; reflexivity).
    apply by_copy; [eapply by_ctor; [|exact E]; repeat constructor; unfold max64; lia|].
    injection E as <-. repeat constructor; auto; unfold fits; cbn; lia. }
  specialize (H case_env (mk_env true true (2 ^ 40)) t NATIVE). 
  destruct (save case_env t NATIVE) as [file| | |] eqn:E; [|vm_compute in E; discriminate..].
  specialize (H file Ht). vm_compute in E. injection E as <-.
  assert (save_fits case_env t NATIVE) as HF by (split; vm_compute; discriminate).
  assert (room (mk_env true true (2 ^ 40)) t) as HR by (split; vm_compute; discriminate).
  specialize (H HF HR ltac:(repeat constructor) eq_refl). vm_compute in H. discriminate.
Qed.

(** *** C27 *)
(** Saving a sequence (writer, tensor, endianness) to one stream, and loading as many. *)
Fixpoint save_all (l : list (env * tensor * endian)) : outcome bytes :=
  match l with
  | [] => Ok []
  | (v, t, e) :: r => let* a := save v t e in let* b := save_all r in Ok (a ++ b)
  end.
Fixpoint load_all (v : env) (ds : list dtype) (s : istream) (g : globals) : outcome (list tensor) * istream :=
  match ds with
  | [] => (Ok [], s)
  | d :: r =>
      match load v d s g with
      | (Ok t, s1, g1) =>
          match load_all v r s1 g1 with
          | (Ok ts, s2) => (Ok (t :: ts), s2)
          | p => p
          end
      | (Throw x, s1, _) => (Throw x, s1)
      | (AssertFail, s1, _) => (AssertFail, s1)
      | (Undef u, s1, _) => (Undef u, s1)
      end
  end.
Definition tensor_in (p : env * tensor * endian) : tensor := snd (fst p).
Theorem C27_concatenated_tensors : forall v2 items,
  Forall (fun p => let '(v1, t, e) := p in
    api_tensor t /\ save_fits v1 t e /\ room v2 t /\ same_host_if_complex v1 v2 t /\
    Forall no_nuls (t_values t)) items ->
  exists b, save_all items = Ok b /\
  forall s g tail, good s = true -> prior_parses g -> rest s = b ++ tail ->
    load_all v2 (map (fun p => t_dtype (tensor_in p)) items) s g = (Ok (map tensor_in items), set_rest s tail).
Proof.
  intros v2 items. induction 1 as [|[[v1 t] e] items (Ht & HF & HR & HC & HN) HI (b & HB & IH)].
  - exists []. split; [reflexivity|]. intros s g tail _ _ R. cbn in R |- *. now rewrite <- R, set_rest_id.
  - destruct (C26_save_load_round_trip v1 v2 t e Ht HF HR HC HN) as (file & HS & HL).
    exists (file ++ b). split; [cbn [save_all]; now rewrite HS, HB|].
    intros s g tail G Hg R. rewrite <- app_assoc in R.
    destruct (HL s g _ G Hg R) as (g' & HLd & Hg').
    cbn [map load_all tensor_in fst snd]. rewrite HLd.
    rewrite (IH (set_rest s (b ++ tail)) g' tail G Hg' eq_refl). now rewrite set_rest_set_rest.
Qed.
Print Assumptions C27_concatenated_tensors.
Example C27_case : Forall (fun p => let '(v1, t, e) := p in
    api_tensor t /\ save_fits v1 t e /\ room case_env t /\ same_host_if_complex v1 case_env t /\
    Forall no_nuls (t_values t)) [(case_env, case_tensor, BIG); (mk_env true false 0, case_tensor, NATIVE)].
Proof.
  assert (forall v1 e, host_big v1 = false \/ host_big v1 = true ->
    api_tensor case_tensor /\ save_fits v1 case_tensor e /\ room case_env case_tensor /\
    same_host_if_complex v1 case_env case_tensor /\ Forall no_nuls (t_values case_tensor)) as H.
  { intros v1 e _. destruct C26_case as (H1 & _ & H3 & _ & H5 & _). split; [exact H1|]. split; [|split; [exact H3|split; [|exact H5]]].
    - unfold save_fits. split; [|vm_compute; discriminate]. destruct (means_big (host_big v1) e); vm_compute; discriminate.
    - intros [H|H]; discriminate. }
  constructor; [apply H; auto|]. constructor; [apply H; auto|constructor].
Qed.

(** *** C28.  Any stream, not only saved ones: [h] is what peek reports. *)
Theorem C28_wrong_type_refused : forall v d s g h s1 g1 d' f,
  peek v s g = (Ok h, s1, g1) -> h_dtype h = Some d' -> h_fortran h = Some f -> d <> d' ->
  (product (h_shape h) mod 2 ^ 64) * item_size d <= mem v ->
  load v d s g = (Throw RuntimeError, s1, g1).
Proof.
  intros v d s g h s1 g1 d' f HP Hd Hf Hne HM. unfold load, peek in *. rewrite HP.
  unfold tensor_load. rewrite Hf. cbn [field obind]. unfold make_tensor. rewrite get_size_product.
  change (2 ^ 64) with 18446744073709551616 in *.
  destruct (_ >? mem v) eqn:E; [lia|]. cbn [obind]. rewrite Hd. cbn [field obind].
  assert (dtype_eqb d' d = false) as -> by (destruct d, d'; try reflexivity; congruence). reflexivity.
Qed.
Print Assumptions C28_wrong_type_refused.
(** In no case is a tensor returned, whatever the memory. *)
Theorem C28_never_accepted : forall v d s g h s1 g1,
  peek v s g = (Ok h, s1, g1) -> h_dtype h <> Some d -> forall t, fst (fst (load v d s g)) <> Ok t.
Proof.
  intros v d s g h s1 g1 HP Hne t. unfold load, peek in *. rewrite HP.
  destruct (tensor_load v d h s1) as [o s2] eqn:E. cbn [fst]. intros ->.
  destruct (tensor_load_ok _ _ _ _ _ _ E) as (f & e & m & _ & H & _). congruence.
Qed.
Print Assumptions C28_never_accepted.
(** For saved tensors. *)
Theorem C28_saved_tensors : forall v1 v2 t e d,
  api_tensor t -> save_fits v1 t e -> 246 <= mem v2 -> t_size t * item_size d <= mem v2 -> d <> t_dtype t ->
  exists file, save v1 t e = Ok file /\ forall s g tail, good s = true -> prior_parses g -> rest s = file ++ tail ->
    fst (fst (load v2 d s g)) = Throw RuntimeError.
Proof.
  intros v1 v2 t e d Ht HF HM1 HM2 Hne. eexists. split; [apply save_file|]. intros s g tail G Hg R.
  rewrite <- app_assoc in R. pose proof (api_tensor_wf _ Ht) as Hw.
  destruct (load_written_header v1 v2 t e s g d _ Hw Hg G HF HM1 R) as (g' & _ & ->). cbn [fst].
  unfold tensor_load. cbn [h_fortran h_dtype h_shape field obind]. unfold make_tensor.
  destruct Hw as (_ & _ & Hsz & _). rewrite get_size_product, <- Hsz.
  destruct (_ >? mem v2) eqn:E; [lia|]. cbn [obind].
  assert (dtype_eqb (t_dtype t) d = false) as -> by (destruct d, (t_dtype t); try reflexivity; congruence). reflexivity.
Qed.
Print Assumptions C28_saved_tensors.
Example C28_case : t_size case_tensor * item_size FLOAT64 <= mem case_env /\ FLOAT64 <> t_dtype case_tensor.
Proof. split; vm_compute; discriminate. Qed.

(** *** C29 *)
Theorem C29_peek_agrees_with_load : forall v d s g t s' g',
  load v d s g = (Ok t, s', g') ->
  exists h s1, peek v s g = (Ok h, s1, g') /\
    h_dtype h = Some (t_dtype t) /\ t_dtype t = d /\
    h_shape h = t_shape t /\ h_fortran h = Some (t_fortran t).
Proof.
  intros v d s g t s' g'. unfold load, peek. destruct (read_npy_header v s g) as [[[h|?| |?] s1] g1]; try discriminate.
  destruct (tensor_load v d h s1) as [o s2] eqn:E. intros [= -> <- <-].
  destruct (tensor_load_ok _ _ _ _ _ _ E) as (f & e & m & H1 & H2 & H3 & H4 & H5 & _).
  exists h, s1. rewrite H5, H4, H1, H2, H3. auto.
Qed.
Print Assumptions C29_peek_agrees_with_load.
Example C29_case : exists file s' g', save case_env case_tensor BIG = Ok file /\
  load case_env UNICODE_STRING (open_str file) (zrepeat 0 65536, DTYPE_MAP) = (Ok case_tensor, s', g').
Proof.
  destruct C26_case as (H1 & H2 & H3 & H4 & H5 & _).
  destruct (C26_save_load_round_trip case_env case_env case_tensor BIG H1 H2 H3 H4 H5) as (file & HS & HL).
  destruct (HL (open_str file) (zrepeat 0 65536, DTYPE_MAP) [] eq_refl) as (g' & H & _).
  - constructor.
  - now rewrite app_nil_r.
  - exists file. eauto.
Qed.

(** *** C30.  [cut] counts the data bytes that are still there. *)
Theorem C30_truncation_not_detected : forall v1 v2 t e header data cut s g,
  api_tensor t -> save_fits v1 t e -> room v2 t -> same_host_if_complex v1 v2 t ->
  Forall no_nuls (t_values t) ->
  save v1 t e = Ok (header ++ data) -> len data = t_size t * array_item (t_dtype t) (t_values t) ->
  0 <= cut <= len data ->
  good s = true -> prior_parses g -> rest s = header ++ ztake cut data ->
  let big := means_big (host_big v1) e in
  let missing := if is_string (t_dtype t) then 255
                 else if (file_item_size (t_dtype t) =? 1) || Bool.eqb big (host_big v2) then 0 else 255 in
  exists t' s' g', load v2 (t_dtype t) s g = (Ok t', s', g') /\
    t_shape t' = t_shape t /\ t_fortran t' = t_fortran t /\ t_dtype t' = t_dtype t /\
    t_size t' = t_size t /\
    (* complete elements are intact *)
    (forall k, 0 <= k <= t_size t -> k * array_item (t_dtype t) (t_values t) <= cut ->
       ztake k (t_values t') = ztake k (t_values t)) /\
    (* and the rest is as if the file had gone on with that byte *)
    exists s2 g2, load v2 (t_dtype t)
        (open_str (header ++ ztake cut data ++ zrepeat missing (len data - cut))) g = (Ok t', s2, g2).
Proof.
  intros v1 v2 t e header data cut s g Ht HF HR HC HN HS HD HCut G Hg R big missing.
  pose proof (api_tensor_wf _ Ht) as Hw. pose proof Hw as (Hs & Hst & Hsz & Hv). destruct HR as [HM1 HM2].
  destruct (longest_bounds (t_values t)) as [HL0 HLs].
  assert (0 <= array_item (t_dtype t) (t_values t)) as HA0 by (unfold array_item, file_item_size; destruct (t_dtype t); cbn [width]; lia).
  rewrite save_file in HS. fold big in HS. injection HS as HS. symmetry in HS.
  assert (len (write_values v1 (t_dtype t) e (t_values t)) = t_size t * array_item (t_dtype t) (t_values t)) as HWL.
  { rewrite write_values_enc. pose proof (enc_length v1 (t_dtype t) e (longest (t_values t)) (t_values t)) as HE.
    rewrite (len_flat_map _ _ (Z.to_nat (array_item (t_dtype t) (t_values t)))).
    - unfold t_size. rewrite Z2Nat.id by exact HA0. reflexivity.
    - apply Forall_forall. intros x Hx. specialize (HE x Hv HLs Hx HL0). unfold len in HE. unfold array_item. lia. }
  apply app_eq_len in HS; [|lia]. destruct HS as [-> ->].
  set (W := write_npy_header _ _ _) in *. set (D := write_values v1 (t_dtype t) e (t_values t)) in *.
  set (o := recorded_order (t_dtype t) big) in *.
  assert (missing = filler v2 (t_dtype t) (if raw_type (t_dtype t) then NATIVE else o)) as Hmiss.
  { unfold missing, filler, o. destruct (is_string (t_dtype t)) eqn:Es; [reflexivity|].
    assert ((file_item_size (t_dtype t) =? 1) = raw_type (t_dtype t)) as -> by (destruct (t_dtype t); reflexivity).
    destruct (raw_type (t_dtype t)) eqn:Er; [reflexivity|]. rewrite is_native_big.
    unfold recorded_order. assert ((width (t_dtype t) =? 1)%nat = false) as -> by (destruct (t_dtype t); try reflexivity; discriminate).
    destruct big, (host_big v2); reflexivity. }
  destruct (load_written_header v1 v2 t e s g (t_dtype t) _ Hw Hg G HF HM1 R) as (g' & _ & HLd).
  set (s2 := open_str (W ++ ztake cut D ++ zrepeat missing (len D - cut))).
  destruct (load_written_header v1 v2 t e s2 g (t_dtype t) (ztake cut D ++ zrepeat missing (len D - cut)) Hw Hg eq_refl HF HM1 eq_refl)
    as (g2 & _ & HLd2).
  assert (get_size (t_shape t) = t_size t) as HG by (now rewrite get_size_product).
  fold big o in HLd, HLd2.
  rewrite tensor_load_complete in HLd, HLd2 by (rewrite HG; exact HM2). cbv zeta in HLd, HLd2. rewrite HG in HLd, HLd2.
  set (e' := if raw_type (t_dtype t) then NATIVE else o) in *.
  set (m := if is_string (t_dtype t) then _ else 0) in *.
  assert (0 <= m) as Hm0 by (unfold m; destruct (t_dtype t); cbn; lia).
  assert (stored (t_dtype t) m = array_item (t_dtype t) (t_values t)) as Hst2.
  { unfold stored, array_item, m. destruct (t_dtype t); reflexivity. }
  assert (0 <= t_size t) as Hn0 by (apply len_nonneg).
  set (sa := set_rest s (ztake cut D)) in *. set (sb := set_rest s2 (ztake cut D ++ zrepeat missing (len D - cut))) in *.
  assert (fst (read_values v2 (t_dtype t) e' m (t_size t) sa) = fst (read_values v2 (t_dtype t) e' m (t_size t) sb)) as HEq.
  { apply read_values_cut with (fill := len D - cut); auto.
    - cbn [rest sa sb set_rest]. now rewrite <- Hmiss.
    - lia.
    - rewrite Hst2. unfold sb. cbn [rest set_rest]. rewrite len_app, len_ztake, len_zrepeat. lia. }
  eexists _, _, g'. split; [exact HLd|]. cbn [t_shape t_fortran t_dtype t_values].
  split; [reflexivity|]. split; [reflexivity|]. split; [reflexivity|]. split; [|split].
  - unfold t_size at 1. cbn [t_values]. 
    destruct (read_values v2 (t_dtype t) e' m (t_size t) sa) as [es sx] eqn:ER. cbn [fst].
    assert (len es = t_size t); [|assumption].
    apply (f_equal fst) in ER. cbn [fst] in ER. rewrite <- ER. apply read_values_count. exact Hn0.
  - intros k Hk Hkc. rewrite HEq. rewrite !ztake_firstn.
    rewrite read_values_prefix.
    2: exact Hk. 2: reflexivity.
    2:{ rewrite Hst2. unfold sb. cbn [rest set_rest]. rewrite len_app, len_ztake, len_zrepeat. lia. }
    set (es1 := firstn (Z.to_nat k) (t_values t)).
    assert (len es1 = k) as Hlen1 by (unfold es1, len; rewrite firstn_length; unfold t_size, len in Hk; lia).
    assert (values_ok (t_dtype t) es1 /\ short (longest (t_values t)) es1 /\ Forall no_nuls es1) as (Hv1 & Hs1 & Hn1).
    { unfold es1. repeat split; apply Forall_forall; intros x Hx; apply firstn_In in Hx.
      - eapply Forall_forall in Hv; eauto.
      - eapply Forall_forall in HLs; eauto.
      - eapply Forall_forall in HN; eauto. }
    set (A := flat_map (enc v1 (t_dtype t) e (longest (t_values t))) es1).
    assert (D = A ++ flat_map (enc v1 (t_dtype t) e (longest (t_values t))) (skipn (Z.to_nat k) (t_values t))) as HDA.
    { unfold D, A, es1. rewrite write_values_enc, <- flat_map_app, firstn_skipn. reflexivity. }
    assert (len A <= cut) as HA.
    { unfold A. rewrite (len_flat_map _ _ (Z.to_nat (array_item (t_dtype t) (t_values t)))).
      - rewrite Hlen1, Z2Nat.id by exact HA0. exact Hkc.
      - apply Forall_forall. intros x Hx.
        pose proof (enc_length v1 (t_dtype t) e (longest (t_values t)) es1 x Hv1 Hs1 Hx HL0) as HE. unfold len in HE. unfold array_item. lia. }
    pose proof (read_enc v1 v2 (t_dtype t) e (longest (t_values t)) es1 sb
      (ztake (cut - len A) (flat_map (enc v1 (t_dtype t) e (longest (t_values t))) (skipn (Z.to_nat k) (t_values t)))
        ++ zrepeat missing (len D - cut)) Hv1 Hs1 HC eq_refl) as HRE.
    rewrite <- Hlen1. fold big o in HRE.
    replace (read_values v2 (t_dtype t) e' m (len es1) sb) with (read_values v2 (t_dtype t) o (longest (t_values t)) (len es1) sb).
    2:{ unfold e', m, o. unfold read_values. destruct (t_dtype t); reflexivity. }
    rewrite HRE; [cbn [fst]; now apply drop_nuls_id|].
    fold A. unfold sb. cbn [rest set_rest]. rewrite app_assoc. f_equal.
    rewrite HDA. rewrite ztake_app_ge by exact HA. reflexivity.
  - eexists _, g2. rewrite HEq. exact HLd2.
Qed.
Print Assumptions C30_truncation_not_detected.
(** Cutting 8 bytes off a little-endian array of three int32: two elements become 0. *)
Example C30_case :
  let t := mk_tensor [3] [1] false INT32 [Scalar 7; Scalar 8; Scalar 9] in
  exists b, save case_env t LITTLE = Ok b /\ len b = 140 /\
  fst (fst (load case_env INT32 (open_str (ztake 132 b)) (zrepeat 0 65536, DTYPE_MAP)))
    = Ok (mk_tensor [3] [1] false INT32 [Scalar 7; Scalar 0; Scalar 0]).
Proof. eexists. split; [vm_compute; reflexivity|]. split; vm_compute; reflexivity. Qed.

(** *** C31 *)
Theorem C31_saved_files_injective : forall v1 v2 t1 t2 e1 e2 file,
  api_tensor t1 -> api_tensor t2 -> save_fits v1 t1 e1 -> save_fits v2 t2 e2 ->
  Forall no_nuls (t_values t1) -> Forall no_nuls (t_values t2) ->
  (is_complex_type (t_dtype t1) -> host_big v1 = host_big v2) ->
  save v1 t1 e1 = Ok file -> save v2 t2 e2 = Ok file -> t1 = t2.
Proof.
  intros v1 v2 t1 t2 e1 e2 file H1 H2 F1 F2 N1 N2 HC S1 S2.
  set (v := mk_env (host_big v1) false (246 + t_size t1 * item_size (t_dtype t1) + t_size t2 * item_size (t_dtype t2))).
  assert (0 <= t_size t1 /\ 0 <= t_size t2) as [P1 P2] by (split; apply len_nonneg).
  assert (0 <= item_size (t_dtype t1) /\ 0 <= item_size (t_dtype t2)) as [Q1 Q2]
    by (split; [destruct (t_dtype t1)|destruct (t_dtype t2)]; cbn; lia).
  assert (room v t1) as R1 by (unfold room, v; cbn [mem]; nia).
  assert (room v t2) as R2 by (unfold room, v; cbn [mem]; nia).
  assert (prior_parses (zrepeat 0 65536, DTYPE_MAP)) as Hg by constructor.
  assert (rest (open_str file) = file ++ []) as HR by (now rewrite app_nil_r).
  assert (t_dtype t1 = t_dtype t2) as HD.
  { rewrite save_file in S1, S2. injection S1 as S1. injection S2 as S2.
    destruct (load_written_header v1 v t1 e1 (open_str file) _ (t_dtype t1) _ (api_tensor_wf _ H1) Hg eq_refl F1 (proj1 R1) (eq_sym S1)) as (ga & _ & LA).
    destruct (load_written_header v2 v t2 e2 (open_str file) _ (t_dtype t1) _ (api_tensor_wf _ H2) Hg eq_refl F2 (proj1 R2) (eq_sym S2)) as (gb & _ & LB).
    pose proof (api_tensor_wf _ H1) as (_ & _ & Z1 & _).
    rewrite tensor_load_complete in LA.
    2:{ rewrite get_size_product, <- Z1. apply R1. }
    rewrite LA in LB. injection LB as LB _.
    match type of LB with (Ok ?t, _) = tensor_load ?a ?b ?c ?d => destruct (tensor_load a b c d) as [o sx] eqn:E end.
    injection LB as <- <-.
    destruct (tensor_load_ok _ _ _ _ _ _ E) as (f & e & m & _ & H & _). cbn [h_dtype] in H. congruence. }
  destruct (C26_save_load_round_trip v1 v t1 e1 H1 F1 R1 (fun _ => eq_refl) N1) as (f1 & E1 & L1).
  rewrite S1 in E1. injection E1 as <-.
  destruct (C26_save_load_round_trip v2 v t2 e2 H2 F2 R2) as (f2 & E2 & L2); [|exact N2|].
  { intros H. rewrite <- HD in H. cbn [host_big v]. symmetry. now apply HC. }
  rewrite S2 in E2. injection E2 as <-.
  destruct (L1 (open_str file) _ [] eq_refl Hg HR) as (ga & LA & _).
  destruct (L2 (open_str file) _ [] eq_refl Hg HR) as (gb & LB & _).
  rewrite HD, LB in LA. congruence.
Qed.
Print Assumptions C31_saved_files_injective.
(** NUL code points are needed out of the way: two different arrays, one file. *)
Example C31_case : save case_env (mk_tensor [2] [1] false UNICODE_STRING [WStr [65; 0]; WStr [66; 67]]) LITTLE
  = save case_env (mk_tensor [2] [1] false UNICODE_STRING [WStr [65]; WStr [66; 67]]) LITTLE.
Proof. vm_compute. reflexivity. Qed.
