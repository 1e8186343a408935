(** C64: reading data that has no NPY header, with a header_info made by the program. *)
From Coq Require Import String ZArith List Bool Lia.
From Verif Require Import Base Stream BaseFacts Dtype Values Spec ValuesFacts PropValues Header HeaderFacts Tensor Npy TensorFacts PropTensor
  SaveFacts Custom Raw.
Import ListNotations.
Open Scope Z_scope.

Lemma load_by_hand v t d e f sh s : get_size sh * item_size t <= mem v ->
  tensor_load v t (header_by_hand d e f sh) s =
    if dtype_eqb d t then
      if is_string t then (Undef UninitRead, s)
      else let e' := if raw_type t then NATIVE else e in
           (Ok (mk_tensor sh (get_ravel_strides sh f) f t (fst (read_values v t e' 0 (get_size sh) s))),
            snd (read_values v t e' 0 (get_size sh) s))
    else (Throw RuntimeError, s).
Proof.
  intros HM. unfold tensor_load, header_by_hand. cbn [h_fortran h_dtype h_shape h_endian h_maxlen field obind].
  unfold make_tensor. destruct (get_size sh * item_size t >? mem v) eqn:E; [lia|]. cbn [obind].
  destruct (dtype_eqb d t); [|reflexivity].
  assert (t_size (mk_tensor sh (get_ravel_strides sh f) f t (zrepeat (zero_elem t) (get_size sh))) = get_size sh) as ->.
  { unfold t_size. cbn [t_values]. rewrite len_zrepeat, get_size_product.
    pose proof (Z.mod_pos_bound (product sh) (2 ^ 64) ltac:(lia)). lia. }
  destruct (is_string t); [destruct (raw_type t); reflexivity|].
  destruct (raw_type t); cbn [obind t_shape t_strides t_fortran t_dtype]; cbv zeta;
    match goal with |- context [read_values ?a ?b ?c ?d ?e ?f] => destruct (read_values a b c d e f) end; reflexivity.
Qed.
Lemma dtype_eqb_true d t : dtype_eqb d t = true <-> d = t.
Proof. split; [destruct d, t; (reflexivity || discriminate)|intros ->; now destruct t]. Qed.

(** Elements of any fixed-width type, in either byte order, with no header before them: read
    on any host as the tensor of the stated shape and order, and the stream stands right
    behind them. (Complex elements in the host's order only: C06.) *)
Theorem C64_raw_arrays : forall v d e fortran shape values s following,
  d <> UNICODE_STRING -> (is_complex_type d -> means_big (host_big v) e = host_big v) ->
  values_ok d values -> product shape < 2 ^ 64 -> len values = product shape ->
  len values * item_size d <= mem v ->
  good s = true -> rest s = flat_map (standard (means_big (host_big v) e) d) values ++ following ->
  exists t, tensor_load v d (header_by_hand d e fortran shape) s = (Ok t, set_rest s following) /\
    t_dtype t = d /\ t_shape t = shape /\ t_fortran t = fortran /\ t_values t = values /\
    (* read_values by itself *)
    read_values_of v d (len values) (header_by_hand d e fortran shape) s = (Ok values, set_rest s following).
Proof.
  intros v d e f sh values s following Hd Hc Hok H64 Hlen HM G HR.
  assert (is_string d = false) as Hs by (destruct d; try reflexivity; congruence).
  assert (get_size sh = len values) as HG.
  { rewrite get_size_product. rewrite <- Hlen. apply Z.mod_small. pose proof (len_nonneg _ values). lia. }
  set (e' := if raw_type d then NATIVE else e).
  assert (read_values v d e' 0 (len values) s = (values, set_rest s following)) as HRd.
  { apply read_values_images; auto. rewrite HR. f_equal.
    assert (raw_type d || is_native v e' = raw_type d || is_native v e) as -> by (unfold e'; destruct (raw_type d); reflexivity).
    transitivity (flat_map (fun x => if raw_type d || is_native v e then elem_image v d x else rev (elem_image v d x)) values);
      [|destruct (raw_type d || is_native v e); reflexivity].
    apply flat_map_ext_in. intros x Hx. assert (elem_ok d x) as HX by (eapply Forall_forall in Hok; eauto). symmetry.
    destruct (is_complex d) eqn:EC.
    - rewrite complex_image_standard by assumption.
      assert (means_big (host_big v) e = host_big v) as HB by (apply Hc; unfold is_complex_type; destruct d; try discriminate; auto).
      rewrite is_native_big, HB, Bool.eqb_reflx. reflexivity.
    - now apply scalar_image_standard. }
  exists (mk_tensor sh (get_ravel_strides sh f) f d values). split.
  { rewrite load_by_hand by (rewrite HG; exact HM). rewrite (proj2 (dtype_eqb_true d d) eq_refl), Hs, HG. cbv zeta. fold e'. now rewrite HRd. }
  cbn [t_dtype t_shape t_fortran t_values]. do 4 (split; [reflexivity|]).
  unfold read_values_of, header_by_hand. cbn [h_endian h_maxlen field]. rewrite Hs. unfold e' in HRd.
  destruct (raw_type d); cbn [obind]; rewrite HRd; reflexivity.
Qed.
Print Assumptions C64_raw_arrays.

(** For strings such a header is not enough, whatever the stream holds; and a header for
    another type is refused before anything is read. *)
Theorem C64_strings_and_other_types : forall v d t e fortran shape s,
  product shape mod 2 ^ 64 * item_size t <= mem v ->
  (d <> t -> tensor_load v t (header_by_hand d e fortran shape) s = (Throw RuntimeError, s)) /\
  (d = t -> d = UNICODE_STRING -> tensor_load v t (header_by_hand d e fortran shape) s = (Undef UninitRead, s)) /\
  (d = t -> d <> UNICODE_STRING -> exists x s', tensor_load v t (header_by_hand d e fortran shape) s = (Ok x, s')) /\
  (forall n, d = UNICODE_STRING -> read_values_of v d n (header_by_hand d e fortran shape) s = (Undef UninitRead, s)).
Proof.
  intros v d t e f sh s HM. rewrite <- get_size_product in HM. rewrite load_by_hand by exact HM. split; [|split; [|split]].
  - intros HN. destruct (dtype_eqb d t) eqn:E; [|reflexivity]. apply dtype_eqb_true in E. contradiction.
  - intros -> ->. reflexivity.
  - intros -> HN. rewrite (proj2 (dtype_eqb_true t t) eq_refl). assert (is_string t = false) as -> by (destruct t; try reflexivity; congruence).
    eexists _, _. reflexivity.
  - intros n ->. reflexivity.
Qed.
Print Assumptions C64_strings_and_other_types.

(** Six big-endian 16-bit integers on a little-endian host, followed by something else. *)
Example C64_case :
  let values := map Scalar [1; 2; 0xFFFE; 0x7FFF; 0; 258] in
  values_ok INT16 values /\ product [2; 3] = 6 /\
  tensor_load case_env INT16 (header_by_hand INT16 BIG true [2; 3])
    (open_str [0; 1; 0; 2; 0xFF; 0xFE; 0x7F; 0xFF; 0; 0; 1; 2; 99]) =
  (Ok (mk_tensor [2; 3] [2; 1] true INT16 values), set_rest (open_str [0; 1; 0; 2; 0xFF; 0xFE; 0x7F; 0xFF; 0; 0; 1; 2; 99]) [99]).
Proof.
  cbv zeta. split; [repeat constructor; vm_compute; intuition discriminate|]. split; [reflexivity|]. vm_compute. reflexivity.
Qed.
