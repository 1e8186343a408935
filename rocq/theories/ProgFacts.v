(** Facts for C73: tensors as arrays, files and archives of arrays. *)
From Coq Require Import String ZArith List Bool Lia.
From Verif Require Import Base Stream BaseFacts Dtype Values Spec ValuesFacts PropValues Header HeaderFacts ParseFacts ParserInv
  NpyFacts Tensor Npy TensorFacts PropTensor SaveFacts PropNpy TensorVars PropVars Views PropViews CutFacts PropCut Files PropFiles
  Crc Npz NpzFacts ArchiveFacts PropNpz ZipFiles Program ProgramSpec.
Import ListNotations.
Open Scope Z_scope.

(** ** Arrays *)
Lemma all_indices_lex shape : all_indices shape = lex shape.
Proof.
  induction shape as [|d l IH]; [reflexivity|]. cbn [all_indices lex]. rewrite IH. unfold upto.
  rewrite !flat_map_concat_map, map_map. reflexivity.
Qed.
Lemma elements_order a : elements a = map (a_at a) (reading_order (a_fortran a) (a_shape a)).
Proof. unfold elements, reading_order. rewrite !all_indices_lex. reflexivity. Qed.

(** The tensor [t] is the array [a]. *)
Definition is_array (t : tensor) (a : array) : Prop :=
  api_tensor t /\ t_dtype t = a_type a /\ t_shape t = a_shape a /\ t_fortran t = a_fortran a /\
  product (a_shape a) < 2 ^ 64 /\ t_values t = elements a.
Lemma is_array_shape t a : is_array t a -> shape_ok (a_shape a).
Proof. intros (Ht & _ & E & _). rewrite <- E. apply (api_tensor_wf _ Ht). Qed.
Lemma is_array_size t a : is_array t a -> t_size t = product (a_shape a).
Proof.
  intros (Ht & _ & E & _ & HP & _). pose proof (api_tensor_wf _ Ht) as (Hs & _ & Hsz & _).
  rewrite Hsz, E. rewrite E in Hs. apply Z.mod_small. split; [now apply product_nonneg|exact HP].
Qed.
Lemma order_length f shape : shape_ok shape -> len (reading_order f shape) = product shape.
Proof.
  intros H. pose proof (order_positions f shape H) as HP. apply (f_equal (@len Z)) in HP.
  rewrite upto_len in HP by now apply product_nonneg. rewrite <- HP. unfold len. now rewrite map_length.
Qed.
Lemma order_at f shape i : shape_ok shape -> in_range i shape ->
  nth_error (reading_order f shape) (Z.to_nat (position f i shape)) = Some i.
Proof.
  intros Hs Hi. apply (order_in f) in Hi. apply In_nth_error in Hi. destruct Hi as (k & Hk).
  destruct (order_nth _ _ _ _ Hs Hk) as [_ HP]. rewrite HP, Nat2Z.id. exact Hk.
Qed.
Lemma valid_spec index shape : valid index shape = true <-> numpy_valid index shape.
Proof.
  unfold numpy_valid. revert shape. induction index as [|i index IH]; intros [|d shape]; cbn [valid]; split; intros H.
  - constructor.
  - reflexivity.
  - discriminate.
  - inversion H.
  - discriminate.
  - inversion H.
  - apply andb_true_iff in H as [H1 H2]. apply andb_true_iff in H1 as [H0 H1]. apply Z.leb_le in H0. apply Z.ltb_lt in H1.
    constructor; [lia|now apply IH].
  - inversion H; subst. apply andb_true_iff. split; [|now apply IH]. apply andb_true_iff. split; [apply Z.leb_le|apply Z.ltb_lt]; lia.
Qed.
Lemma same_index_spec i : forall j, same_index i j = true <-> i = j.
Proof.
  induction i as [|x i IH]; intros [|y j]; cbn [same_index]; split; intros H; try discriminate; try reflexivity.
  - apply andb_true_iff in H as [H1 H2]. apply Z.eqb_eq in H1. apply IH in H2. congruence.
  - injection H as -> ->. rewrite Z.eqb_refl. now apply IH.
Qed.
Lemma normal_in_range index shape : numpy_valid index shape -> shape_ok shape -> in_range (normalised index shape) shape.
Proof.
  unfold numpy_valid, in_range. intros H. induction H as [|i d index shape Hi H IH]; intros Hs; cbn [normalised]; constructor.
  - destruct (i <? 0) eqn:E; lia.
  - inversion Hs; subst. auto.
Qed.
Lemma values_at t a i : is_array t a -> in_range i (a_shape a) ->
  znth (t_values t) (position (a_fortran a) i (a_shape a)) = Some (a_at a i).
Proof.
  intros HA Hi. pose proof (is_array_shape _ _ HA) as Hs. destruct HA as (_ & _ & _ & _ & _ & ->).
  pose proof (order_at (a_fortran a) _ _ Hs Hi) as HN. rewrite elements_order. unfold znth.
  assert (0 <= position (a_fortran a) i (a_shape a)) as H0.
  { apply (order_in (a_fortran a)) in Hi. apply In_nth_error in Hi. destruct Hi as (k & Hk).
    destruct (order_nth _ _ _ _ Hs Hk) as [_ ->]. lia. }
  destruct (_ <? 0) eqn:E; [lia|]. now rewrite nth_error_map, HN.
Qed.

Lemma array_get t a index : is_array t a -> int32_index index ->
  t_get t index = match element a index with Some x => Ok x | None => Throw InvalidArgument end.
Proof.
  intros HA HI. pose proof HA as (Ht & _ & ES & EF & HP & _). pose proof (is_array_shape _ _ HA) as Hs.
  destruct (C20_signed_indices_follow_numpy t index Ht HI) as [H1 H2]. unfold element. rewrite ES in *.
  destruct (valid index (a_shape a)) eqn:EV.
  - apply valid_spec in EV. destruct (H1 EV) as (_ & _ & H3). destruct (H3 HP) as [H4 _]. rewrite H4.
    pose proof (normal_in_range _ _ EV Hs) as HR.
    destruct (C18_addressing t (normalised index (a_shape a)) Ht ltac:(now rewrite ES) ltac:(now rewrite ES)) as (x & Hx & HX).
    rewrite HX. rewrite ES, EF in Hx. rewrite (values_at t a _ HA HR) in Hx. congruence.
  - apply H2. rewrite <- valid_spec, EV. discriminate.
Qed.

Lemma list_ext A (l l' : list A) : (forall k, nth_error l k = nth_error l' k) -> l = l'.
Proof.
  revert l'. induction l as [|x l IH]; intros [|y l'] H; [reflexivity|..].
  - specialize (H 0%nat). discriminate.
  - specialize (H 0%nat). discriminate.
  - f_equal; [specialize (H 0%nat); cbn in H; congruence|]. apply IH. intros k. exact (H (S k)).
Qed.
Lemma nth_update_nth A (l : list A) i x : forall k, nth_error (nth_update l i x) k =
  if (k =? i)%nat then match nth_error l k with Some _ => Some x | None => None end else nth_error l k.
Proof.
  revert i. induction l as [|y l IH]; intros i k.
  - destruct i; cbn [nth_update]; destruct k; cbn; [reflexivity|reflexivity|reflexivity|]. now destruct (k =? i)%nat.
  - destruct i as [|i]; cbn [nth_update].
    + destruct k as [|k]; reflexivity.
    + destruct k as [|k]; [reflexivity|]. cbn [nth_error]. rewrite IH. reflexivity.
Qed.
Lemma array_set t a index x : is_array t a -> int32_index index -> elem_ok (a_type a) x ->
  match stored a index x with
  | Some a' => exists t', t_set t index x = Ok t' /\ is_array t' a' /\ a_type a' = a_type a
  | None => t_set t index x = Throw InvalidArgument
  end.
Proof.
  intros HA HI Hx. pose proof HA as (Ht & ED & ES & EF & HP & EV). pose proof (is_array_shape _ _ HA) as Hs.
  unfold stored. destruct (valid index (a_shape a)) eqn:EVa.
  - apply valid_spec in EVa. pose proof (normal_in_range _ _ EVa Hs) as HR.
    destruct (C22_get_and_set t index x Ht ltac:(now rewrite ES) HI ltac:(now rewrite ES)) as (t' & HS & E1 & E2 & E3 & _).
    exists t'. split; [exact HS|]. split; [|reflexivity].
    split; [eapply by_set; [exact Ht|rewrite ED; exact Hx|exact HS]|]. cbn [a_type a_shape a_fortran].
    split; [congruence|]. split; [congruence|]. split; [congruence|]. split; [exact HP|].
    rewrite elements_order. cbn [a_at a_shape a_fortran].
    destruct (C20_signed_indices_follow_numpy t index Ht HI) as [H1 _]. rewrite ES in H1. destruct (H1 EVa) as (_ & H2 & _).
    rewrite EF in H2. unfold t_set in HS. rewrite H2 in HS. cbn [obind] in HS.
    set (q := position (a_fortran a) (normalised index (a_shape a)) (a_shape a)) in *.
    assert (0 <= q < 2 ^ 64) as Hq.
    { pose proof HR as HR'. apply (order_in (a_fortran a)) in HR'. apply In_nth_error in HR'. destruct HR' as (k & Hk).
      destruct (order_nth _ _ _ _ Hs Hk) as [_ E]. fold q in E.
      assert (nth_error (reading_order (a_fortran a) (a_shape a)) k <> None) as HN by congruence.
      apply nth_error_Some in HN. pose proof (order_length (a_fortran a) _ Hs) as HL. unfold len in HL. lia. }
    rewrite Z.mod_small in HS by exact Hq. destruct (znth (t_values t) q); [|discriminate]. injection HS as <-. cbn [t_values].
    rewrite EV, elements_order. apply list_ext. intros k. rewrite nth_update_nth, !nth_error_map.
    destruct (nth_error (reading_order (a_fortran a) (a_shape a)) k) as [j|] eqn:EJ; cbn [option_map]; [|now destruct (k =? _)%nat].
    destruct (order_nth _ _ _ _ Hs EJ) as [HJ EP].
    destruct (same_index j (normalised index (a_shape a))) eqn:ESI.
    + apply same_index_spec in ESI. subst j. fold q in EP. rewrite EP, Nat2Z.id, Nat.eqb_refl. reflexivity.
    + destruct (Nat.eqb_spec k (Z.to_nat q)) as [->|]; [|reflexivity]. exfalso.
      pose proof (order_at (a_fortran a) _ _ Hs HR) as HO. fold q in HO. rewrite EJ in HO. injection HO as ->.
      assert (same_index (normalised index (a_shape a)) (normalised index (a_shape a)) = true) by now apply same_index_spec. congruence.
  - destruct (C20_signed_indices_follow_numpy t index Ht HI) as [_ H2]. apply H2. rewrite ES, <- valid_spec, EVa. discriminate.
Qed.
Lemma map_nth_upto (src : list elem) d : map (fun k => nth (Z.to_nat k) src d) (upto (len src)) = src.
Proof.
  apply list_ext. intros k. rewrite nth_error_map. destruct (Nat.lt_ge_cases k (length src)) as [Hk|Hk].
  - rewrite upto_nth by (unfold len; lia). cbn [option_map]. rewrite Nat2Z.id. symmetry. now apply nth_error_nth'.
  - assert (nth_error (upto (len src)) k = None) as ->.
    { apply nth_error_None. unfold upto, len. rewrite map_length, seq_length. lia. }
    symmetry. now apply nth_error_None.
Qed.
Lemma array_fill t a src : is_array t a -> values_ok (a_type a) src ->
  match filled a src with
  | Some a' => exists t', copy_from t src = (Ok tt, t') /\ is_array t' a' /\ a_type a' = a_type a
  | None => copy_from t src = (Throw InvalidArgument, t)
  end.
Proof.
  intros HA Hv. pose proof HA as (Ht & ED & ES & EF & HP & EV). pose proof (is_array_shape _ _ HA) as Hs.
  pose proof (is_array_size _ _ HA) as HSz. unfold filled. destruct (len src =? product (a_shape a)) eqn:E.
  - apply Z.eqb_eq in E. pose proof (by_copy t src Ht ltac:(rewrite ED; exact Hv)) as HB.
    destruct (C24_copy_and_move t src) as (H1 & _ & H3 & _). destruct (H1 ltac:(lia)) as (E1 & E2 & _).
    destruct (H3 _ (or_introl eq_refl)) as (F1 & F2 & F3 & _).
    destruct (copy_from t src) as [o t']. cbn [fst snd] in *. subst o. exists t'. split; [reflexivity|]. split; [|reflexivity].
    split; [exact HB|]. cbn [a_type a_shape a_fortran]. split; [congruence|]. split; [congruence|]. split; [congruence|].
    split; [exact HP|]. rewrite E2, elements_order. cbn [a_at a_shape a_fortran].
    rewrite <- (map_map (fun j => position (a_fortran a) j (a_shape a)) (fun k => nth (Z.to_nat k) src (zero_of (a_type a)))).
    rewrite order_positions by exact Hs. rewrite <- E. symmetry. apply map_nth_upto.
  - apply Z.eqb_neq in E. apply C24_copy_and_move. lia.
Qed.
Lemma array_make v d shape f : shape_ok shape -> product shape < 2 ^ 64 ->
  if product shape * item_size d >? mem v then make_tensor v d shape f = Throw AllocError
  else exists t, make_tensor v d shape f = Ok t /\ is_array t (zeros d shape f).
Proof.
  intros Hs HP. assert (get_size shape = product shape) as EG.
  { rewrite get_size_product. apply Z.mod_small. split; [now apply product_nonneg|exact HP]. }
  unfold make_tensor. rewrite EG. destruct (_ >? mem v) eqn:E; [reflexivity|]. eexists. split; [reflexivity|].
  split; [eapply (by_ctor v d shape f); [exact Hs|]; unfold make_tensor; rewrite EG, E; reflexivity|].
  cbn [t_dtype t_shape t_fortran t_values zeros a_type a_shape a_fortran]. do 4 (split; [try reflexivity; try exact HP|]).
  unfold zeros. rewrite elements_order. cbn [a_at a_shape a_fortran].
  assert (zero_elem d = zero_of d) as -> by (destruct d; reflexivity).
  unfold zrepeat. rewrite <- (order_length f shape Hs). unfold len. rewrite Nat2Z.id.
  induction (reading_order f shape) as [|i l IH]; [reflexivity|]. cbn [length repeat map]. now f_equal.
Qed.
Lemma array_list t a : is_array t a -> visits t = Ok (elements a).
Proof. intros (_ & _ & _ & _ & _ & E). rewrite <- E. apply visits_values. Qed.

(** ** Files *)
Lemma recordable_fits v e t a : is_array t a -> recordable (host_big v) e a -> save_fits v t e /\ Forall no_nuls (t_values t).
Proof. intros (_ & E1 & E2 & E3 & _ & E4) (H1 & H2 & H3). unfold save_fits. rewrite E1, E2, E3, E4. auto. Qed.
Lemma file_size_len v e t a : is_array t a -> len (file_of v e t) = file_size (host_big v) e a.
Proof.
  intros HA. pose proof (is_array_shape _ _ HA) as Hs. pose proof (is_array_size _ _ HA) as HSz. destruct HA as (Ht & E1 & E2 & E3 & _ & E4).
  pose proof (api_tensor_wf _ Ht) as (_ & _ & _ & Hv). unfold file_of. rewrite save_file.
  rewrite len_app. unfold file_size, dict_of. f_equal.
  - destruct (write_npy_header_shape (array_descr (t_dtype t) (means_big (host_big v) e) (t_values t)) (t_fortran t) (t_shape t))
      as (pad & HP & HM & ->). rewrite dictionary_python in * by (now rewrite E2). rewrite E1, E2, E3, E4 in *.
    set (D := len (python_dict _ _ _)) in *. rewrite !len_app, len_zrepeat. fold D.
    change (len [147; 78; 85; 77; 80; 89; 1; 0; u8 (D + pad + 1); 0]) with 10. change (len [10]) with 1.
    rewrite Z.max_r by lia. clearbody D. clear - HP HM. Z.to_euclidean_division_equations. lia.
  - destruct (longest_bounds (t_values t)) as [HL0 HLs].
    assert (0 <= array_item (t_dtype t) (t_values t)) as HA0 by (unfold array_item, file_item_size; destruct (t_dtype t); cbn [width]; lia).
    rewrite write_values_enc. pose proof (enc_length v (t_dtype t) e (longest (t_values t)) (t_values t)) as HE.
    rewrite (len_flat_map _ _ (Z.to_nat (array_item (t_dtype t) (t_values t)))).
    + rewrite Z2Nat.id by exact HA0. rewrite <- E1, <- E4. unfold t_size in HSz. rewrite HSz. reflexivity.
    + apply Forall_forall. intros x Hx. specialize (HE x Hv HLs Hx HL0). unfold len in HE. unfold array_item. lia.
Qed.
Lemma file_loads v e t a d s g tail : is_array t a -> recordable (host_big v) e a -> 246 <= mem v ->
  good s = true -> prior_parses g -> rest s = file_of v e t ++ tail ->
  exists s' g', prior_parses g' /\
    load v d s g = (match received (mem v) d a with inr _ => Ok t | inl x => Throw x end, s', g').
Proof.
  intros HA HR HM G Hg R. destruct (recordable_fits _ _ _ _ HA HR) as [HF HN]. pose proof (is_array_size _ _ HA) as HSz.
  pose proof HA as (Ht & E1 & E2 & _). unfold received.
  pose proof (api_tensor_wf _ Ht) as Hw.
  assert (get_size (t_shape t) = t_size t) as EG by (rewrite get_size_product; symmetry; apply Hw).
  destruct (product (a_shape a) * item_size d >? mem v) eqn:EM; [|destruct (dtype_eqb d (a_type a)) eqn:ED].
  - pose proof R as R'. unfold file_of in R'. rewrite save_file, <- app_assoc in R'.
    destruct (load_written_header v v t e s g d _ Hw Hg G HF HM R') as (g' & Hg' & HL).
    eexists. exists g'. split; [exact Hg'|]. rewrite HL.
    unfold tensor_load. cbn [h_fortran h_dtype h_shape field obind]. unfold make_tensor. rewrite EG, HSz, EM. reflexivity.
  - assert (d = a_type a) as -> by (destruct d, (a_type a); (reflexivity || discriminate)).
    destruct (C26_save_load_round_trip v v t e Ht HF) as (file & HS & HL); [split; [exact HM|]| |exact HN|].
    { rewrite HSz, E1. lia. }
    { intros _. reflexivity. }
    rewrite file_of_save in HS. injection HS as <-. destruct (HL s g tail G Hg R) as (g' & HL' & Hg').
    rewrite E1 in HL'. eauto.
  - pose proof R as R'. unfold file_of in R'. rewrite save_file, <- app_assoc in R'.
    destruct (load_written_header v v t e s g d _ Hw Hg G HF HM R') as (g' & Hg' & HL).
    eexists. exists g'. split; [exact Hg'|]. rewrite HL.
    unfold tensor_load. cbn [h_fortran h_dtype h_shape field obind]. unfold make_tensor. rewrite EG, HSz, EM. cbn [obind].
    assert (dtype_eqb (t_dtype t) d = false) as -> by (rewrite E1; clear - ED; destruct d, (a_type a); (reflexivity || discriminate)). reflexivity.
Qed.
Lemma file_peeks v e t a s g tail : is_array t a -> recordable (host_big v) e a -> 246 <= mem v ->
  good s = true -> prior_parses g -> rest s = file_of v e t ++ tail ->
  exists h s' g', prior_parses g' /\ peek v s g = (Ok h, s', g') /\
    header_seen h = Ok (SawHeader (a_type a) (a_fortran a) (a_shape a)).
Proof.
  intros HA HR HM G Hg R. destruct (recordable_fits _ _ _ _ HA HR) as [[HF HL] HN].
  pose proof HA as (Ht & E1 & E2 & E3 & _). pose proof (api_tensor_wf _ Ht) as (Hs & _).
  unfold file_of in R. rewrite save_file, <- app_assoc in R.
  destruct (read_header_written v s g _ _ _ _ (t_fortran t) (t_shape t) _ (prior_map_ok _ Hg) G
     (array_descr_denotes (t_dtype t) (means_big (host_big v) e) (t_values t) HL) Hs HF HM R) as (g' & H & body & Hg').
  unfold peek. rewrite H. do 3 eexists. split; [|split; [reflexivity|]].
  - subst. now constructor.
  - unfold header_seen. cbn [h_dtype h_fortran h_shape field obind]. now rewrite E1, E2, E3.
Qed.
