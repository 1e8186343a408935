(** Property C51: NPY files written by other programs. *)
From Coq Require Import String ZArith List Bool Lia Permutation.
From Verif Require Import Base Stream BaseFacts Dtype Values Spec ValuesFacts PropValues Header HeaderFacts
  ParseFacts ParserInv ParserRel NpyFacts PropHeader Tensor Npy TensorFacts PropTensor SaveFacts PropNpy.
Import ListNotations.
Open Scope Z_scope.

(** *** C51 *)
(** The NPY format: magic string, version 1.0 or 2.0, length of the dictionary text in
    two or four bytes, the dictionary text. *)
Inductive npy_start (dict : bytes) : bytes -> Prop :=
| Version_1 : len dict < 2 ^ 16 ->
    npy_start dict ([147; 78; 85; 77; 80; 89; 1; 0] ++ digits256 2 (len dict) ++ dict)
| Version_2 : len dict < 2 ^ 31 ->
    npy_start dict ([147; 78; 85; 77; 80; 89; 2; 0] ++ digits256 4 (len dict) ++ dict).
(** Element types as numpy spells them; strings of [n] code points, padded with NULs. *)
Definition spelled (d : dtype) (big : bool) (n : Z) : bytes :=
  match d with
  | UNICODE_STRING => (if big then str ">U" else str "<U") ++ dec n
  | _ => numpy_descr d big
  end.
Definition stored_bytes (d : dtype) (big : bool) (n : Z) (x : elem) : bytes :=
  let b := standard big d x in
  b ++ (match d with UNICODE_STRING => zrepeat 0 (4 * n - len b) | _ => [] end).
Definition at_most (n : Z) (x : elem) : Prop := match x with WStr cs => len cs <= n | _ => True end.

Lemma digits2 x : 0 <= x < 2 ^ 16 -> exists a b, digits256 2 x = [a; b] /\ x = a + 256 * b.
Proof.
  intros H. exists (x mod 256), (x / 256 mod 256). split.
  - unfold digits256. cbn [seq map]. change (256 ^ Z.of_nat 0) with 1. change (256 ^ Z.of_nat 1) with 256. now rewrite Z.div_1_r.
  - rewrite (Z.mod_small (x / 256)); [pose proof (Z.div_mod x 256 ltac:(lia)); lia|].
    split; [apply Z.div_pos; lia|apply Z.div_lt_upper_bound; lia].
Qed.
Lemma digits4 x : 0 <= x < 2 ^ 31 -> exists a b c d, digits256 4 x = [a; b; c; d] /\ x = a + 256 * b + 65536 * c + 16777216 * d.
Proof.
  intros H. exists (x mod 256), (x / 256 mod 256), (x / 65536 mod 256), (x / 16777216 mod 256). split.
  - unfold digits256. cbn [seq map]. change (256 ^ Z.of_nat 0) with 1. change (256 ^ Z.of_nat 1) with 256.
    change (256 ^ Z.of_nat 2) with 65536. change (256 ^ Z.of_nat 3) with 16777216. now rewrite Z.div_1_r.
  - rewrite (Z.mod_small (x / 16777216)).
    2:{ split; [apply Z.div_pos; lia|apply Z.div_lt_upper_bound; lia]. }
    pose proof (Z.div_mod x 256 ltac:(lia)). pose proof (Z.div_mod (x / 256) 256 ltac:(lia)).
    pose proof (Z.div_mod (x / 65536) 256 ltac:(lia)).
    rewrite Z.div_div in * by lia. change (256 * 256) with 65536 in *. change (65536 * 256) with 16777216 in *. lia.
Qed.
Lemma read_npy_header_v2 v s g a b c d body tail :
  good s = true -> len body = a + 256 * b + 65536 * c + 16777216 * d -> len body < 2 ^ 31 -> len body <= mem v ->
  rest s = [147; 78; 85; 77; 80; 89; 2; 0; a; b] ++ [c; d] ++ body ++ tail ->
  read_npy_header v s g =
    (fst (parse_dictionary v body g), set_rest s tail, snd (parse_dictionary v body g)).
Proof.
  intros G HL H31 HM HR. unfold read_npy_header.
  assert (sread STATIC_HEADER_LENGTH s =
          ([147; 78; 85; 77; 80; 89; 2; 0; a; b], set_rest s ([c; d] ++ body ++ tail))) as ->.
  { apply (sread_app s [147; 78; 85; 77; 80; 89; 2; 0; a; b] ([c; d] ++ body ++ tail) G HR). }
  match goal with |- context [if dbg v then ?c else _] => assert ((if dbg v then c else Ok tt) = Ok tt) as ->
    by (destruct (dbg v); reflexivity) end.
  assert (cells 10 [147; 78; 85; 77; 80; 89; 2; 0; a; b] = map Some [147; 78; 85; 77; 80; 89; 2; 0; a; b]) as -> by reflexivity.
  cbn [obind and_then cell_is cell map nth Z.eqb Pos.eqb].
  assert (sread 2 (set_rest s ([c; d] ++ body ++ tail)) = ([c; d], set_rest s (body ++ tail))) as ->.
  { pose proof (sread_app (set_rest s ([c; d] ++ body ++ tail)) [c; d] (body ++ tail)) as H.
    change (len [c; d]) with 2 in H. rewrite H by auto. now rewrite set_rest_set_rest. }
  assert (cells 2 [c; d] = map Some [c; d]) as -> by reflexivity.
  cbn [obind and_then cell_is cell map nth Z.eqb Pos.eqb]. rewrite <- HL.
  assert (s32_to_size (len body) = len body) as ->.
  { unfold s32_to_size. replace (len body <? 2147483648) with true; [reflexivity|]. symmetry. apply Z.ltb_lt. lia. }
  destruct (len body >? mem v) eqn:E; [lia|].
  rewrite (sread_app (set_rest s (body ++ tail)) body tail) by auto.
  rewrite Z.sub_diag. cbn [zrepeat Z.to_nat repeat]. rewrite app_nil_r, set_rest_set_rest.
  destruct (parse_dictionary v body g). reflexivity.
Qed.
Lemma read_start v s g dict start tail : good s = true -> npy_start dict start -> len dict <= mem v ->
  rest s = start ++ tail ->
  read_npy_header v s g = (fst (parse_dictionary v dict g), set_rest s tail, snd (parse_dictionary v dict g)).
Proof.
  intros G HS HM HR. pose proof (len_nonneg _ dict) as H0. destruct HS as [H|H].
  - destruct (digits2 (len dict) ltac:(lia)) as (a & b & E & Ed). rewrite E in HR.
    apply (read_npy_header_v1 v s g a b dict tail G Ed HM). rewrite HR. now rewrite <- !app_assoc.
  - destruct (digits4 (len dict) ltac:(lia)) as (a & b & c & d & E & Ed). rewrite E in HR.
    apply (read_npy_header_v2 v s g a b c d dict tail G Ed H HM). rewrite HR. now rewrite <- !app_assoc.
Qed.
Lemma spelled_denotes d big n : 0 <= n <= 2147483647 ->
  descr_denotes (spelled d big n) d (recorded_order d big) (match d with UNICODE_STRING => n | _ => 0 end).
Proof.
  intros H. destruct d; try (apply denotes_fixed; discriminate).
  cbn [spelled]. replace (recorded_order UNICODE_STRING big) with (if big then BIG else LITTLE) by (destruct big; reflexivity).
  now apply denotes_string.
Qed.
(** On a host of the file's byte order the library would have written the same data. *)
Lemma stored_enc d big n es x : 0 <= n -> values_ok d es -> Forall (at_most n) es -> In x es ->
  enc (mk_env big false 0) d NATIVE n x = stored_bytes d big n x.
Proof.
  intros Hn Hv Hm Hx. set (v := mk_env big false 0).
  assert (elem_ok d x) as Ho by (eapply Forall_forall in Hv; eauto).
  assert (means_big (host_big v) NATIVE = big) as MB by (cbn; now destruct big).
  assert (is_native v NATIVE = true) as NV by (rewrite is_native_big, MB; apply Bool.eqb_reflx).
  unfold stored_bytes. destruct (is_string d) eqn:Es.
  - destruct d; try discriminate. unfold enc. cbn [is_string].
    destruct x as [y|a b|cs]; cbn in Ho.
    + destruct Ho as (_ & _ & H & _). congruence.
    + destruct Ho as ([H|H] & _); discriminate.
    + cbn [write_wstr standard]. destruct Ho as [_ Hcs].
      assert (flat_map (unit_bytes v NATIVE) cs = flat_map (ordered big 4) cs) as ->.
      { apply flat_map_ext_in. intros c Hc. rewrite unit_bytes_order; [now rewrite MB|]. eapply Forall_forall in Hcs; eauto. unfold fits in Hcs. lia. }
      f_equal. f_equal. rewrite (len_flat_map _ _ 4%nat) by (apply Forall_forall; intros; apply ordered_length). lia.
  - replace (match d with UNICODE_STRING => _ | _ => [] end) with (@nil Z) by (destruct d; try discriminate; reflexivity).
    rewrite app_nil_r. unfold enc. rewrite Es. destruct (is_complex d) eqn:Ec.
    + etransitivity; [exact (complex_image_standard v NATIVE d x Ec Ho)|]. now rewrite MB, NV.
    + etransitivity; [exact (scalar_image_standard v NATIVE d x Es Ho Ec)|]. now rewrite MB.
Qed.
Theorem C51_files_of_other_writers : forall v s g es tail d big n fortran shape values start following,
  good s = true -> prior_parses g ->
  (* a dictionary with the three keys, in any order and with any blanks *)
  Forall layout_ok es ->
  Permutation (map value es) [FDescr (spelled d big n); FOrder fortran; FShape shape] ->
  0 <= n <= 2147483647 -> shape_ok shape -> len (tuple_body shape) < 65535 ->
  (* the element values *)
  values_ok d values -> Forall no_nuls values -> Forall (at_most n) values ->
  len values = product shape -> product shape < 2 ^ 64 ->
  (is_complex_type d -> big = host_big v) ->
  (* the file, at the place where [s] stands *)
  npy_start (dict_text es tail) start ->
  rest s = start ++ flat_map (stored_bytes d big n) values ++ following ->
  (* memory suffices *)
  len (dict_text es tail) <= mem v -> len values * item_size d <= mem v ->
  exists t g', load v d s g = (Ok t, set_rest s following, g') /\ prior_parses g' /\
    t_dtype t = d /\ t_shape t = shape /\ t_fortran t = fortran /\ t_values t = values.
Proof.
  intros v s g es tail d big n f sh values start following G Hg HL HP Hn Hs HT Hv HN Hm Hlen H64 HC HSt HR HM1 HM2.
  pose proof (C13_key_order_and_blanks_ignored v g es tail _ d _ _ f sh Hg HL HP (spelled_denotes d big n Hn) Hs HT) as HD.
  pose proof (read_start v s g _ start _ G HSt HM1 HR) as HH. rewrite HD in HH.
  assert (get_size sh = len values) as HG.
  { rewrite get_size_product by exact Hs. rewrite <- Hlen, Z.mod_small; [reflexivity|]. rewrite Hlen in *. pose proof (len_nonneg _ values). lia. }
  set (g' := snd (parse_dictionary v (dict_text es tail) g)) in *.
  exists (mk_tensor sh (get_ravel_strides sh f) f d values), g'.
  split; [|split; [now constructor|cbn; auto]].
  unfold load. rewrite HH. rewrite tensor_load_complete by (rewrite HG; exact HM2). cbv zeta. rewrite HG.
  set (v1 := mk_env big false 0).
  assert (means_big (host_big v1) NATIVE = big) as MB by (cbn; now destruct big).
  assert (map drop_nuls values = values) as Edn by (apply drop_nuls_id; exact HN).
  assert (read_values v d (if raw_type d then NATIVE else recorded_order d big)
    (if is_string d then match d with UNICODE_STRING => n | _ => 0 end else 0)
    (len values) (set_rest s (flat_map (stored_bytes d big n) values ++ following))
    = (values, set_rest s following)) as ->; [|reflexivity].
  replace (if raw_type d then NATIVE else recorded_order d big) with (recorded_order d big)
      by (destruct (raw_type d) eqn:ER; [now apply raw_order|reflexivity]).
  pose proof (read_enc v1 v d NATIVE n values (set_rest s (flat_map (stored_bytes d big n) values ++ following)) following Hv) as HE.
  rewrite MB, Edn, set_rest_set_rest in HE.
  replace (flat_map (enc v1 d NATIVE n) values) with (flat_map (stored_bytes d big n) values) in HE.
  2:{ apply flat_map_ext_in. intros x Hx. symmetry. apply (stored_enc d big n values); auto. lia. }
  rewrite <- HE.
  - unfold read_values. destruct d; reflexivity.
  - exact Hm.
  - intros Hc. cbn. now apply HC.
  - exact G.
  - reflexivity.
Qed.
Print Assumptions C51_files_of_other_writers.
(** Other format versions are refused when assertions are off (NDEBUG); otherwise an
    assertion compares a character that was never read. *)
Theorem C51_other_versions : forall v s g major minor a b tail d,
  good s = true -> prior_parses g -> (major, minor) <> (1, 0) -> (major, minor) <> (2, 0) -> 0 <= mem v ->
  rest s = [147; 78; 85; 77; 80; 89; major; minor; a; b] ++ tail ->
  fst (fst (peek v s g)) = (if dbg v then Undef UninitRead else Throw RuntimeError) /\
  fst (fst (load v d s g)) = (if dbg v then Undef UninitRead else Throw RuntimeError).
Proof.
  intros v s g ma mi a b tail d G Hg H1 H2 HM HR.
  assert (exists s' g', read_npy_header v s g = ((if dbg v then Undef UninitRead else Throw RuntimeError), s', g')) as (s' & g' & E).
  { unfold read_npy_header.
    assert (sread STATIC_HEADER_LENGTH s = ([147; 78; 85; 77; 80; 89; ma; mi; a; b], set_rest s tail)) as ->
      by (apply (sread_app s [147; 78; 85; 77; 80; 89; ma; mi; a; b] tail G HR)).
    match goal with |- context [if dbg v then check_magic ?c ?d ?e else _] => assert ((if dbg v then check_magic c d e else Ok tt) = Ok tt) as ->
      by (destruct (dbg v); reflexivity) end.
    assert (cells 10 [147; 78; 85; 77; 80; 89; ma; mi; a; b] = map Some [147; 78; 85; 77; 80; 89; ma; mi; a; b]) as -> by reflexivity.
    unfold and_then, cell_is. cbn [obind cell map nth].
    assert (forall m, (ma, mi) <> (m, 0) -> (if ma =? m then Ok (mi =? 0) else Ok false) = Ok false) as HV.
    { intros m H. destruct (ma =? m) eqn:Em; [|reflexivity]. destruct (mi =? 0) eqn:Ei; [|reflexivity].
      exfalso. apply H. f_equal; lia. }
    rewrite (HV 1 H1), (HV 2 H2). cbn [obind].
    destruct (0 >? mem v) eqn:E; [lia|].
    destruct (sread 0 (set_rest s tail)) as [dd s3] eqn:Es.
    assert (dd = []) as ->.
    { pose proof (sread_app (set_rest s tail) [] tail) as H. change (len (@nil Z)) with 0 in H. rewrite H in Es by auto. now injection Es as <- _. }
    cbn [app Z.sub len length zrepeat Z.to_nat repeat Z.of_nat Z.add Z.opp].
    assert (fst (parse_dictionary v [] g) = fst (parse_dictionary v [] ([], DTYPE_MAP))) as HP.
    { destruct (C14_independent_of_earlier_parses v [] g (zrepeat 0 65536, DTYPE_MAP) (fst g) [] Hg prior_none) as [HP _].
      etransitivity; [|exact HP]. now destruct g. }
    assert (fst (parse_dictionary v [] ([], DTYPE_MAP)) = if dbg v then Undef UninitRead else Throw RuntimeError) as HE
      by (destruct v as [hb [] mm]; vm_compute; reflexivity).
    rewrite HE in HP. clear HE. destruct (parse_dictionary v [] g) as [o g'] eqn:EP. cbn [fst] in HP. subst o.
    eexists _, _. reflexivity. }
  unfold peek, load. rewrite E. destruct (dbg v); auto.
Qed.
Print Assumptions C51_other_versions.
(** A version 2.0 file, big-endian, keys in an unusual order, extra string padding. *)
Definition foreign_entries :=
  [mk_dict_entry (str "  ") [] (str " ") [] (FShape [2; 1]);
   mk_dict_entry [] (str " ") [10; 9] (str "  ") (FDescr (str ">U3"));
   mk_dict_entry [] [] [] [] (FOrder true)].
Example C51_case : exists start,
  Forall layout_ok foreign_entries /\
  Permutation (map value foreign_entries) [FDescr (spelled UNICODE_STRING true 3); FOrder true; FShape [2; 1]] /\
  values_ok UNICODE_STRING [WStr [0x41; 0x1F600]; WStr []] /\ Forall (at_most 3) [WStr [0x41; 0x1F600]; WStr []] /\
  npy_start (dict_text foreign_entries [10]) start /\
  stored_bytes UNICODE_STRING true 3 (WStr [0x41; 0x1F600]) = [0; 0; 0; 65; 0; 1; 246; 0; 0; 0; 0; 0] /\
  start = [147; 78; 85; 77; 80; 89; 2; 0; 61; 0; 0; 0] ++ str "{  'shape': (2, 1),'descr' :" ++ [10; 9] ++ str "'>U3',  'fortran_order':True,}" ++ [10].
Proof.
  eexists. split; [repeat constructor; cbn; unfold blank; repeat constructor; auto; lia|].
  split; [cbn; apply (Permutation_app_comm [FShape [2; 1]] [_; _])|].
  split; [repeat constructor; unfold fits; cbn; lia|].
  split; [repeat constructor; unfold at_most, len; cbn; lia|].
  split; [apply Version_2; vm_compute; reflexivity|]. split; [reflexivity|]. vm_compute. reflexivity.
Qed.
