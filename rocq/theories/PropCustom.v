(** Property C61: tensor classes of the user. *)
From Coq Require Import String ZArith List Bool Lia.
From Verif Require Import Base Stream BaseFacts Dtype Values Spec ValuesFacts PropValues Header HeaderFacts
  ParseFacts ParserInv ParserRel NpyFacts PropHeader Tensor Npy TensorFacts PropTensor SaveFacts PropNpy
  Npz NpzFacts ArchiveFacts PropNpz Custom.
Import ListNotations.
Open Scope Z_scope.

(** *** C61 *)
(** An object presents an array - an element type, a shape, an order and the elements in that order -
    if its methods answer accordingly. *)
Record presents (v : env) (e : endian) (x : saveable) (d : dtype) (shape : list Z) (fortran : bool)
    (elements : list elem) : Prop := {
  same_ndim : cs_ndim x = len shape;
  same_dims : forall i n, znth shape i = Some n -> cs_shape x i = Ok n;
  same_code : cs_dtype x e = Ok (array_descr d (means_big (host_big v) e) elements);
  same_order : cs_fortran x = fortran;
  same_data : cs_save x e = Ok (write_values v d e elements)
}.
Lemma class_dims_ok x shape : (forall i n, znth shape i = Some n -> cs_shape x i = Ok n) ->
  forall n i, 0 <= i -> (Z.to_nat i + n = length shape)%nat -> class_dims x n i = Ok (skipn (Z.to_nat i) shape).
Proof.
  intros H. induction n as [|n IH]; intros i Hi HL.
  - cbn [class_dims]. rewrite skipn_all2 by lia. reflexivity.
  - cbn [class_dims]. destruct (znth_in_range _ shape i) as [y Hy]; [unfold len; lia|].
    rewrite (H _ _ Hy). cbn [obind]. rewrite IH by lia. cbn [obind]. f_equal.
    unfold znth in Hy. destruct (i <? 0) eqn:E; [lia|].
    replace (Z.to_nat (i + 1)) with (S (Z.to_nat i)) by lia.
    clear -Hy. revert Hy. generalize (Z.to_nat i). intros k. revert k.
    induction shape as [|z l IH]; intros [|k] H; cbn in H |- *; try discriminate; [congruence|]. now apply IH.
Qed.
Lemma save_class_file v e x d shape f es : presents v e x d shape f es ->
  save_class x e = Ok (write_npy_header (array_descr d (means_big (host_big v) e) es) f shape ++ write_values v d e es).
Proof.
  intros [H1 H2 H3 H4 H5]. unfold save_class. rewrite H1.
  rewrite (class_dims_ok x shape H2) by (unfold len; change (Z.to_nat 0) with 0%nat; lia).
  change (Z.to_nat 0) with 0%nat. cbn [obind skipn]. rewrite H3, H5, H4. reflexivity.
Qed.
(** Whatever class presents an array, the file is the one npy::tensor would write, and so
    is the entry of an archive; the built-in class is one such class. *)
Theorem C61_same_files : forall v e x t,
  presents v e x (t_dtype t) (t_shape t) (t_fortran t) (t_values t) ->
  save_class x e = save v t e /\
  forall c w n, w_endian w = e -> w_write_class c w n x = w_write v c w n t.
Proof.
  intros v e x t H. assert (save_class x e = save v t e) as HS by (rewrite (save_class_file _ _ _ _ _ _ _ H), save_file; reflexivity).
  split; [exact HS|]. intros c w n <-. unfold w_write_class, w_write, w_write_on; fold w_write_file. now rewrite HS.
Qed.
Print Assumptions C61_same_files.
Definition builtin (v : env) (t : tensor) : saveable :=
  mk_saveable (t_ndim t) (t_dim t) (tensor_dtype v t) (t_fortran t)
    (fun e => Ok (write_values v (t_dtype t) e (t_values t))).
Theorem C61_builtin_class : forall v e t,
  presents v e (builtin v t) (t_dtype t) (t_shape t) (t_fortran t) (t_values t).
Proof.
  intros v e t. constructor; try reflexivity.
  - intros i n H. cbn. unfold t_dim. now rewrite H.
  - cbn. pose proof (save_file v t e) as H. unfold save in H.
    rewrite (dims_of_ok t) in H by (change (Z.to_nat 0) with 0%nat; lia). cbn [obind] in H.
    destruct (tensor_dtype v t e) as [dt| | |] eqn:E; try discriminate. cbn [obind] in H.
    unfold tensor_dtype in E. destruct (is_string (t_dtype t)) eqn:Hs.
    + destruct (t_dtype t); try discriminate. injection E as <-. unfold array_descr.
      rewrite max_length_longest. do 2 f_equal. unfold native_endian. destruct e; cbn; destruct (host_big v); reflexivity.
    + destruct (C01_dtype_strings_round_trip v (t_dtype t) e) as [_ H1]. rewrite <- E.
      destruct (t_dtype t); try discriminate; destruct H1 as [H1 _]; try discriminate; rewrite H1; reflexivity.
Qed.
Print Assumptions C61_builtin_class.

(** Reading with any class: its load function gets the header as it was saved and a
    stream that stands at the data; if it asks read_values for all elements it gets them
    and leaves the stream behind the array. What the function makes of them is its own. *)
Theorem C61_any_loader : forall v1 v2 e x d shape fortran elements,
  presents v1 e x d shape fortran elements -> shape_ok shape -> values_ok d elements ->
  len (python_dict (array_descr d (means_big (host_big v1) e) elements) fortran shape) <= 245 ->
  longest elements <= 2147483647 -> 246 <= mem v2 ->
  (is_complex_type d -> host_big v1 = host_big v2) ->
  exists file, save_class x e = Ok file /\
  forall s g tail, good s = true -> prior_parses g -> rest s = file ++ tail ->
  exists h at_data g', prior_parses g' /\
    h_dtype h = Some d /\ h_fortran h = Some fortran /\ h_shape h = shape /\
    read_values_of v2 d (len elements) h at_data = (Ok (map drop_nuls elements), set_rest s tail) /\
    forall A (L : header_info -> istream -> outcome A * istream),
      load_class v2 L s g = (fst (L h at_data), snd (L h at_data), g').
Proof.
  intros v1 v2 e x d shape f es HP Hs Hv HF HL HM HC. eexists. split; [apply (save_class_file _ _ _ _ _ _ _ HP)|].
  intros s g tail G Hg R. rewrite <- app_assoc in R.
  destruct (read_header_written v2 s g _ _ _ _ f shape _ (prior_map_ok _ Hg) G
     (array_descr_denotes d (means_big (host_big v1) e) es HL) Hs HF HM R) as (g' & H & body & Hg').
  match type of H with _ = (Ok ?hd, ?st, _) => exists hd, st, g' end. split; [subst; now constructor|]. split; [|split; [|split; [|split]]].
  5: { intros A L. unfold load_class. rewrite H. match goal with |- context [L ?a ?b] => destruct (L a b) end. reflexivity. }
  1-3: reflexivity.
  set (big := means_big (host_big v1) e) in *.
  pose proof (read_enc v1 v2 d e (longest es) es (set_rest s (write_values v1 d e es ++ tail)) tail Hv (proj2 (longest_bounds _)) HC G) as HR.
  rewrite write_values_enc in HR. specialize (HR eq_refl). rewrite set_rest_set_rest in HR.
  unfold read_values_of. cbn [h_endian h_maxlen field obind]. rewrite write_values_enc.
  fold big in HR.
  assert ((if raw_type d then Ok NATIVE else Ok (recorded_order d big)) = Ok (recorded_order d big)) as ->
    by (destruct (raw_type d) eqn:ER; [now rewrite (raw_order d big ER)|reflexivity]).
  cbn [obind]. destruct (is_string d) eqn:ES; cbn [obind].
  - destruct d; try discriminate. rewrite HR. reflexivity.
  - assert (read_values v2 d (recorded_order d big) 0 (len es) (set_rest s (flat_map (enc v1 d e (longest es)) es ++ tail))
      = (map drop_nuls es, set_rest s tail)) as ->; [|reflexivity].
    rewrite <- HR. unfold read_values. now rewrite ES.
Qed.
Print Assumptions C61_any_loader.

(** ** Matrices (examples/custom_tensors) *)
Lemma znth_map_seq {A} (f : nat -> A) n k : 0 <= k < Z.of_nat n -> znth (map f (seq 0 n)) k = Some (f (Z.to_nat k)).
Proof.
  intros H. unfold znth. destruct (k <? 0) eqn:E; [lia|].
  rewrite nth_error_map, nth_error_nth' with (d := 0%nat) by (rewrite seq_length; lia).
  rewrite seq_nth by lia. reflexivity.
Qed.
Lemma place_bounds col rows cols i j : 0 <= i < rows -> 0 <= j < cols -> 0 <= place col rows cols i j < rows * cols.
Proof. intros Hi Hj. unfold place. destruct col; nia. Qed.
Lemma coefficient_some col m i j : len (mx_data m) = mx_rows m * mx_cols m -> 0 <= i < mx_rows m -> 0 <= j < mx_cols m ->
  exists x, coefficient col m i j = Some x.
Proof. intros HL Hi Hj. apply znth_in_range. rewrite HL. now apply place_bounds. Qed.
Lemma assigned_ok from to m i j : len (mx_data m) = mx_rows m * mx_cols m -> 0 <= i < mx_rows m -> 0 <= j < mx_cols m ->
  coefficient to (assigned from to m) i j = coefficient from m i j.
Proof.
  intros HL Hi Hj. pose proof (place_bounds to _ _ _ _ Hi Hj) as HB.
  destruct (coefficient_some from m i j HL Hi Hj) as [x Hx].
  unfold coefficient at 1, assigned. cbn [mx_rows mx_cols mx_data].
  rewrite znth_map_seq by lia. rewrite Z2Nat.id by lia.
  assert ((if to then place to (mx_rows m) (mx_cols m) i j mod mx_rows m else place to (mx_rows m) (mx_cols m) i j / mx_cols m) = i) as ->.
  { unfold place. destruct to.
    - rewrite Z.mul_comm, Z_mod_plus_full. apply Z.mod_small. lia.
    - rewrite Z.div_add_l by lia. rewrite Z.div_small; lia. }
  assert ((if to then place to (mx_rows m) (mx_cols m) i j / mx_rows m else place to (mx_rows m) (mx_cols m) i j mod mx_cols m) = j) as ->.
  { unfold place. destruct to.
    - rewrite (Z.mul_comm _ j), Z.div_add by lia. rewrite Z.div_small; lia.
    - rewrite Z.add_comm, Z_mod_plus_full. apply Z.mod_small. lia. }
  now rewrite Hx.
Qed.
Definition float_type (d : dtype) : Prop := d = FLOAT32 \/ d = FLOAT64.
Lemma floats_short d es : float_type d -> values_ok d es -> longest es = 0 /\ map drop_nuls es = es.
Proof.
  intros Hd. induction 1 as [|x l Hx H [IH1 IH2]]; [split; reflexivity|]. cbn [longest map]. rewrite IH1, IH2.
  destruct x; cbn; try (split; reflexivity). destruct Hx as [-> _]. destruct Hd; discriminate.
Qed.
(** The example's load function, in either storage order, gives the matrix whose
    coefficient (i, j) is the element at index (i, j) of the two-dimensional array that
    was saved, in either order, by any class; a one-dimensional array is one column. *)
Theorem C61_arrays_as_matrices : forall v1 v2 e x d shape fortran elements rows cols col,
  presents v1 e x d shape fortran elements -> float_type d ->
  shape = [rows; cols] \/ shape = [rows] /\ cols = 1 ->
  shape_ok shape -> values_ok d elements -> len elements = rows * cols ->
  246 <= mem v2 -> rows * cols * item_size d <= mem v2 ->
  exists file, save_class x e = Ok file /\
  forall s g tail, good s = true -> prior_parses g -> rest s = file ++ tail ->
  exists m g', load_class v2 (eigen_load v2 d col) s g = (Ok m, set_rest s tail, g') /\ prior_parses g' /\
    mx_rows m = rows /\ mx_cols m = cols /\ len (mx_data m) = rows * cols /\
    forall i j, 0 <= i < rows -> 0 <= j < cols ->
      exists y, coefficient col m i j = Some y /\
        znth elements (position fortran (firstn (length shape) [i; j]) shape) = Some y.
Proof.
  intros v1 v2 e x d shape f es rows cols col HP Hd Hsh Hs Hv HL HM1 HM2.
  destruct (floats_short d es Hd Hv) as [E0 E1].
  assert (len (python_dict (array_descr d (means_big (host_big v1) e) es) f shape) <= 245) as HF.
  { eapply C11_eight_dimensions_fit; [apply array_descr_denotes; lia|exact Hs|]. destruct Hsh as [-> |[-> _]]; cbn; lia. }
  destruct (C61_any_loader v1 v2 e x d shape f es HP Hs Hv HF ltac:(lia) HM1) as (file & HS & HLd).
  { intros [-> | ->]; destruct Hd; discriminate. }
  exists file. split; [exact HS|]. intros s g tail G Hg R.
  destruct (HLd s g tail G Hg R) as (h & st & g' & Hg' & Hh1 & Hh2 & Hh3 & HR & HLA). rewrite E1 in HR.
  set (m := mk_matrix rows cols es).
  set (m' := if Bool.eqb f col || (cols =? 1) then m else assigned f col m).
  exists m', g'. split.
  { rewrite HLA. unfold eigen_load. rewrite Hh3, Hh2. cbn [field].
    assert (len shape >? 2 = false) as -> by (destruct Hsh as [-> |[-> _]]; reflexivity).
    rewrite HL in HR.
    destruct Hsh as [-> |[-> ->]].
    - destruct (rows * cols * item_size d >? mem v2) eqn:EM; [lia|]. rewrite HR. reflexivity.
    - destruct (rows * 1 * item_size d >? mem v2) eqn:EM; [lia|]. rewrite HR. reflexivity. }
  split; [exact Hg'|]. split; [unfold m'; destruct (_ || _); reflexivity|]. split; [unfold m'; destruct (_ || _); reflexivity|].
  assert (0 <= rows /\ 0 <= cols) as [R0 C0].
  { destruct Hsh as [-> |[-> ->]]; inversion Hs as [|? ? A B]; subst; [inversion B as [|? ? A2 B2]; subst|]; split; lia. }
  split.
  { unfold m'. destruct (_ || _); [exact HL|]. unfold assigned, len. cbn [mx_data mx_rows mx_cols]. rewrite map_length, seq_length. unfold m. cbn [mx_rows mx_cols]. nia. }
  intros i j Hi Hj.
  destruct (coefficient_some f m i j HL Hi Hj) as [y Hy]. exists y. split.
  - unfold m'. destruct (Bool.eqb f col) eqn:EB; cbn [orb].
    + apply Bool.eqb_prop in EB. now subst.
    + destruct (cols =? 1) eqn:EC; [|rewrite (assigned_ok f col m i j HL Hi Hj); exact Hy].
      apply Z.eqb_eq in EC. subst cols. assert (j = 0) as -> by lia. unfold coefficient, m, place in *. cbn [mx_rows mx_cols mx_data] in *.
      destruct f, col; try discriminate; rewrite <- Hy; f_equal; lia.
  - rewrite <- Hy. unfold coefficient, m, place. cbn [mx_rows mx_cols mx_data]. f_equal.
    destruct Hsh as [-> |[-> ->]]; unfold position; cbn [length firstn col_major row_major product]; destruct f; lia.
Qed.
Print Assumptions C61_arrays_as_matrices.

(** The example program: a matrix saved in one storage order and loaded in the same or
    the other one, on any two hosts, in any byte order. *)
Theorem C61_matrix_round_trip : forall v1 v2 e d m col1 col2,
  float_type d -> 0 <= mx_rows m < 2 ^ 63 -> 0 <= mx_cols m < 2 ^ 63 ->
  len (mx_data m) = mx_rows m * mx_cols m -> values_ok d (mx_data m) ->
  246 <= mem v2 -> mx_rows m * mx_cols m * item_size d <= mem v2 ->
  exists file, save_class (eigen_saveable v1 d col1 m) e = Ok file /\
  forall s g tail, good s = true -> prior_parses g -> rest s = file ++ tail ->
  exists m' g', load_class v2 (eigen_load v2 d col2) s g = (Ok m', set_rest s tail, g') /\ prior_parses g' /\
    mx_rows m' = mx_rows m /\ mx_cols m' = mx_cols m /\ len (mx_data m') = mx_rows m * mx_cols m /\
    forall i j, 0 <= i < mx_rows m -> 0 <= j < mx_cols m ->
      coefficient col2 m' i j = coefficient col1 m i j.
Proof.
  intros v1 v2 e d m col1 col2 Hd Hr Hc HL Hv HM1 HM2.
  assert (presents v1 e (eigen_saveable v1 d col1 m) d [mx_rows m; mx_cols m] col1 (mx_data m)) as HP.
  { constructor; try reflexivity.
    - intros i n H. cbn [eigen_saveable cs_shape]. unfold znth in H. destruct (i <? 0) eqn:E; [discriminate|].
      destruct (i =? 0) eqn:E0; [replace i with 0 in H by lia; now injection H as <-|].
      destruct (i =? 1) eqn:E1; [replace i with 1 in H by lia; now injection H as <-|].
      exfalso. apply nth_error_In in H as HI. assert (nth_error [mx_rows m; mx_cols m] (Z.to_nat i) = None) by (apply nth_error_None; cbn; lia). congruence.
    - cbn [eigen_saveable cs_dtype]. destruct (C01_dtype_strings_round_trip v1 d e) as [_ H1].
      destruct Hd as [-> | ->]; destruct H1 as [H1 _]; try discriminate; exact H1. }
  destruct (C61_arrays_as_matrices v1 v2 e _ d _ col1 _ (mx_rows m) (mx_cols m) col2 HP Hd (or_introl eq_refl)) as (file & HS & HLd); auto.
  { unfold shape_ok, max64. repeat constructor; lia. }
  exists file. split; [exact HS|]. intros s g tail G Hg R.
  destruct (HLd s g tail G Hg R) as (m' & g' & H1 & H2 & H3 & H4 & H5 & H6). exists m', g'. repeat (split; [assumption|]).
  intros i j Hi Hj. destruct (H6 i j Hi Hj) as (y & Hy1 & Hy2). rewrite Hy1, <- Hy2. unfold coefficient, place, position.
  cbn [length firstn col_major row_major product]. f_equal. destruct col1; lia.
Qed.
Print Assumptions C61_matrix_round_trip.

(** The same through an archive, as the example program does it. By [C61_same_files] the
    archive may have been written from objects of any classes. *)
Theorem C61_matrices_from_archives : forall v1 v2 c method e items a r r' n t rows cols col g,
  archive v1 c method e items a -> Forall (unpacks c method v1 e v2) items ->
  (forall k u b, In (k, u) items -> save v1 u e = Ok b -> len b <= mem v2) ->
  opened a r -> reader_after v2 c r r' -> resolve items n = Some t ->
  api_tensor t -> float_type (t_dtype t) -> t_shape t = [rows; cols] -> rows * cols < 2 ^ 64 ->
  246 <= mem v2 -> rows * cols * item_size (t_dtype t) <= mem v2 -> prior_parses g ->
  exists m r'' g', r_read_class v2 c (eigen_load v2 (t_dtype t) col) r' n g = (Ok m, r'', g') /\ prior_parses g' /\
    mx_rows m = rows /\ mx_cols m = cols /\
    forall i j, 0 <= i < rows -> 0 <= j < cols ->
      exists y, coefficient col m i j = Some y /\ znth (t_values t) (position (t_fortran t) [i; j] [rows; cols]) = Some y.
Proof.
  intros v1 v2 c method e items a r r' n t rows cols col g HA HU HM Hop Haf HR Ht Hd Esh HN HM1 HM2 Hg.
  destruct (archive_ps _ _ _ _ _ _ HA) as (ps & HL & _ & HO & _). destruct (HO r Hop) as [HS _].
  pose proof (archive_reads v1 v2 c method e items ps r r' n (proj1 HA)) as H.
  specialize (H ltac:(intros k u Hin; left; eapply HM; [exact Hin|apply file_of_save]) HU HL HS Haf). rewrite HR in H.
  destruct H as (r'' & H). pose proof (api_tensor_wf _ Ht) as (Hs & _ & Hsz & Hv).
  rewrite Esh in Hs, Hsz. assert (0 <= rows /\ 0 <= cols) as [R0 C0].
  { inversion Hs as [|? ? A B]; subst. inversion B as [|? ? A2 B2]; subst. split; lia. }
  assert (len (t_values t) = rows * cols) as HLt.
  { unfold t_size in Hsz. cbn [product] in Hsz. rewrite Z.mul_1_r, Z.mod_small in Hsz by nia. exact Hsz. }
  pose proof (C61_builtin_class v1 e t) as HP. rewrite Esh in HP.
  destruct (C61_arrays_as_matrices v1 v2 e _ _ _ _ _ rows cols col HP Hd (or_introl eq_refl) Hs Hv HLt HM1 HM2) as (file & HSv & HLd).
  rewrite <- Esh in HP. rewrite (proj1 (C61_same_files v1 e _ t HP)), file_of_save in HSv. injection HSv as <-.
  destruct (HLd (open_str (file_of v1 e t)) g [] eq_refl Hg) as (m & g' & H1 & H2 & H3 & H4 & H5 & H6); [symmetry; apply app_nil_r|].
  exists m, r'', g'. split; [unfold r_read_class; rewrite H, H1; reflexivity|]. repeat (split; [assumption|]). exact H6.
Qed.
Print Assumptions C61_matrices_from_archives.

(** The hypotheses are met, and the orders differ: a 2 x 3 matrix of floats stored by
    rows, loaded by columns on a host of the other byte order. *)
Definition case_matrix : matrix := mk_matrix 2 3 (map Scalar [1; 2; 3; 4; 5; 0x3F800000]).
Definition other_host : env := mk_env true false (2 ^ 40).
Example C61_case : values_ok FLOAT32 (mx_data case_matrix) /\
  match save_class (eigen_saveable case_env FLOAT32 false case_matrix) BIG with
  | Ok file => fst (fst (load_class other_host (eigen_load other_host FLOAT32 true) (open_str file) (zrepeat 0 65536, DTYPE_MAP)))
               = Ok (mk_matrix 2 3 (map Scalar [1; 4; 2; 5; 3; 0x3F800000]))
  | _ => False
  end.
Proof. split; [repeat constructor; try discriminate; unfold fits; cbn; lia|vm_compute; reflexivity]. Qed.

(** What the example's load function does not check: the element type. A saved array of
    32-bit integers is taken for floats with the same bits; npy::tensor refuses it (C28). *)
Theorem C61_example_does_not_check_the_type : exists t file,
  api_tensor t /\ t_dtype t = INT32 /\ save case_env t LITTLE = Ok file /\
  fst (fst (load_class case_env (eigen_load case_env FLOAT32 false) (open_str file) (zrepeat 0 65536, DTYPE_MAP)))
    = Ok (mk_matrix 1 1 [Scalar 7]) /\
  fst (fst (load case_env FLOAT32 (open_str file) (zrepeat 0 65536, DTYPE_MAP))) = Throw RuntimeError.
Proof.
  destruct (make_tensor case_env INT32 [1; 1] false) as [t0| | |] eqn:E; try (vm_compute in E; discriminate).
  destruct (save case_env (snd (copy_from t0 [Scalar 7])) LITTLE) as [file| | |] eqn:EF; try (vm_compute in E; injection E as <-; vm_compute in EF; discriminate).
  exists (snd (copy_from t0 [Scalar 7])), file. split; [|split; [|split; [exact EF|]]].
  - apply by_copy; [eapply by_ctor; [|exact E]; repeat constructor; unfold max64; lia|].
    vm_compute in E. injection E as <-. repeat constructor; try discriminate; unfold fits; cbn; lia.
  - vm_compute in E. injection E as <-. reflexivity.
  - vm_compute in E. injection E as <-. vm_compute in EF. injection EF as <-. split; vm_compute; reflexivity.
Qed.
Print Assumptions C61_example_does_not_check_the_type.
(** And its other limits: more than two dimensions are refused, a scalar (no dimensions)
    makes it read outside the shape. *)
Theorem C61_example_limits : forall v d col h s,
  (2 < len (h_shape h) -> eigen_load v d col h s = (Throw InvalidArgument, s)) /\
  (h_shape h = [] -> eigen_load v d col h s = (Undef OutOfBounds, s)).
Proof.
  intros v d col h s. unfold eigen_load. split; intros H.
  - destruct (len (h_shape h) >? 2) eqn:E; [reflexivity|lia].
  - rewrite H. reflexivity.
Qed.
Print Assumptions C61_example_limits.
(** *** C61.  What cannot be read as an NPY header is refused for every class alike, with
    the exception peek gives and the same state left behind: streams and archives. *)
Theorem C61_same_refusals : forall A (L : header_info -> istream -> outcome A * istream) v g x,
  (forall s s1 g1, peek v s g = (Throw x, s1, g1) -> load_class v L s g = (Throw x, s1, g1)) /\
  (forall c r name r1 g1, r_peek v c r name g = (Throw x, r1, g1) -> r_read_class v c L r name g = (Throw x, r1, g1)).
Proof.
  intros A L v g x. split.
  - intros s s1 g1 H. unfold peek in H. unfold load_class. now rewrite H.
  - intros c r name r1 g1 H. unfold r_peek in H. unfold r_read_class.
    destruct (r_read_file v c r name) as [[b|y| |u] r'] eqn:E.
    + unfold peek in H. unfold load_class. destruct (read_npy_header v (open_str b) g) as [[[h|y| |u] s1] g']; try discriminate.
      now injection H as -> <- <-.
    + now injection H as -> <- <-.
    + discriminate.
    + discriminate.
Qed.
Print Assumptions C61_same_refusals.
Example C61_refusal_case : fst (fst (peek (mk_env false false 1000000) (open_str (str "NOT NPY DATA")) (zrepeat 0 65536, DTYPE_MAP))) = Throw RuntimeError.
Proof. vm_compute. reflexivity. Qed.
