(** Lemmas about Tensor.v. *)
From Coq Require Import String ZArith List Bool Lia.
From Verif Require Import Base Stream BaseFacts Dtype Values Spec ValuesFacts Header HeaderFacts ParseFacts ParserInv Tensor Npy.
Import ListNotations.
Open Scope Z_scope.

(** *** Arithmetic modulo 2^64 *)
Lemma u64_mod z : u64 z = z mod 2 ^ 64. Proof. reflexivity. Qed.
Lemma u64_u64 z : u64 (u64 z) = u64 z. Proof. unfold u64. apply Z.mod_mod. lia. Qed.
Lemma u64_mul_l a b : u64 (u64 a * b) = u64 (a * b).
Proof. unfold u64. now rewrite Zmult_mod_idemp_l. Qed.
Lemma u64_mul_r a b : u64 (a * u64 b) = u64 (a * b).
Proof. unfold u64. now rewrite Zmult_mod_idemp_r. Qed.
Lemma u64_add_l a b : u64 (u64 a + b) = u64 (a + b).
Proof. unfold u64. now rewrite Zplus_mod_idemp_l. Qed.
Lemma u64_add_r a b : u64 (a + u64 b) = u64 (a + b).
Proof. unfold u64. now rewrite Zplus_mod_idemp_r. Qed.
Lemma u64_range z : 0 <= u64 z < 18446744073709551616.
Proof. apply Z.mod_pos_bound. lia. Qed.
Lemma u64_id z : 0 <= z < 2 ^ 64 -> u64 z = z.
Proof. intros. apply Z.mod_small. lia. Qed.

(** *** Products *)
Lemma product_app a b : product (a ++ b) = product a * product b.
Proof. induction a as [|x a IH]; cbn [app product]; [lia|]. rewrite IH. lia. Qed.
Lemma product_rev l : product (rev l) = product l.
Proof. induction l as [|x l IH]; [reflexivity|]. cbn [rev]. rewrite product_app, IH. cbn [product]. lia. Qed.
Lemma product_nonneg l : shape_ok l -> 0 <= product l.
Proof. induction 1; cbn [product]; nia. Qed.
Lemma get_size_product l : get_size l = product l mod 2 ^ 64.
Proof.
  unfold get_size. assert (forall z, fold_left (fun s d => u64 (s * d)) l z = match l with [] => z | _ => u64 (z * product l) end) as H.
  { induction l as [|d l IH]; intros z; [reflexivity|]. cbn [fold_left product]. rewrite IH. destruct l; cbn [product].
    - now rewrite Z.mul_1_r.
    - rewrite u64_mul_l. f_equal. lia. }
  rewrite H. destruct l; [reflexivity|]. rewrite Z.mul_1_l. reflexivity.
Qed.

(** *** Strides *)
Lemma strides_loop_snoc l d : forall st, u64 st = st ->
  strides_loop (l ++ [d]) st = strides_loop l st ++ [u64 (st * product l)].
Proof.
  induction l as [|x l IH]; intros st Hst; cbn [app strides_loop product].
  - now rewrite Z.mul_1_r, Hst.
  - rewrite IH by apply u64_u64. do 3 f_equal. rewrite u64_mul_l. f_equal. lia.
Qed.
Lemma strides_cons d l : get_ravel_strides (d :: l) false = u64 (product l) :: get_ravel_strides l false.
Proof.
  unfold get_ravel_strides. cbn [rev]. rewrite strides_loop_snoc by reflexivity.
  rewrite rev_app_distr. cbn [rev app]. now rewrite Z.mul_1_l, product_rev.
Qed.
Lemma strides_fortran l : get_ravel_strides l true = get_ravel_strides (rev l) false.
Proof. unfold get_ravel_strides. now rewrite rev_involutive. Qed.
Lemma strides_length l f : length (get_ravel_strides l f) = length l.
Proof.
  unfold get_ravel_strides. rewrite rev_length.
  assert (forall m st, length (strides_loop m st) = length m) as H.
  { induction m as [|x m IH]; intros st; cbn; [reflexivity|]. now rewrite IH. }
  rewrite H. destruct f; [reflexivity|]. apply rev_length.
Qed.

(** *** The index loop *)
Lemma ravel_loop_in_range index shape : in_range index shape -> forall extra acc,
  ravel_loop (index ++ extra) shape (get_ravel_strides shape false) acc
  = Ok (match shape with [] => acc | _ => u64 (acc + row_major index shape) end).
Proof.
  induction 1 as [|i d index shape Hi HR IH]; intros extra acc.
  - change (get_ravel_strides [] false) with (@nil Z). destruct extra; reflexivity.
  - rewrite strides_cons. cbn [app ravel_loop row_major]. destruct (i >=? d) eqn:E; [lia|].
    rewrite IH. destruct shape as [|d2 shape].
    + inversion HR; subst. cbn [row_major product]. rewrite u64_add_r.
      change (u64 1) with 1. f_equal. f_equal. lia.
    + rewrite u64_add_l. rewrite u64_mul_r.
      rewrite <- Z.add_assoc, (Z.add_comm (u64 _)), Z.add_assoc, u64_add_r. do 2 f_equal. lia.
Qed.
Lemma ravel_loop_short index shape shape2 : in_range index shape -> shape2 <> [] -> forall acc,
  ravel_loop index (shape ++ shape2) (get_ravel_strides (shape ++ shape2) false) acc = Undef OutOfBounds.
Proof.
  intros H Hn. induction H as [|i d index shape Hi HR IH]; intros acc; cbn [app].
  - destruct shape2 as [|d shape2]; [congruence|]. rewrite strides_cons. reflexivity.
  - rewrite strides_cons. cbn [ravel_loop]. destruct (i >=? d) eqn:E; [lia|]. apply IH.
Qed.
Lemma ravel_loop_bad index shape : length index = length shape -> ~ in_range index shape ->
  Forall (fun i => 0 <= i) index -> forall acc,
  ravel_loop index shape (get_ravel_strides shape false) acc = Throw InvalidArgument.
Proof.
  revert shape. induction index as [|i index IH]; intros [|d shape] HL HN HF acc; try discriminate.
  - exfalso. apply HN. constructor.
  - rewrite strides_cons. cbn [ravel_loop]. destruct (i >=? d) eqn:E; [reflexivity|].
    apply IH; [now injection HL| |now inversion HF].
    intros H. apply HN. inversion HF; subst. constructor; [lia|exact H].
Qed.

Lemma in_range_rev index shape : in_range index shape <-> in_range (rev index) (rev shape).
Proof.
  assert (forall a b, in_range a b -> in_range (rev a) (rev b)) as H.
  { induction 1 as [|i d a b Hi HR IH]; cbn; [constructor|]. apply Forall2_app; [exact IH|]. now repeat constructor. }
  split; [apply H|]. intros HR. apply H in HR. now rewrite !rev_involutive in HR.
Qed.
Lemma in_range_length index shape : in_range index shape -> length index = length shape.
Proof. induction 1; cbn; congruence. Qed.

Lemma row_major_app a b sa sb : length a = length sa ->
  row_major (a ++ b) (sa ++ sb) = row_major a sa * product sb + row_major b sb.
Proof.
  revert sa. induction a as [|i a IH]; intros [|d sa] HL; try discriminate; cbn [app row_major]; [lia|].
  injection HL as HL. rewrite (IH sa HL), product_app. lia.
Qed.
Lemma col_row index shape : length index = length shape ->
  col_major index shape = row_major (rev index) (rev shape).
Proof.
  revert shape. induction index as [|i index IH]; intros [|d shape] HL; try discriminate; [reflexivity|].
  injection HL as HL. cbn [col_major rev]. rewrite row_major_app by now rewrite !rev_length.
  rewrite <- IH by exact HL. cbn [row_major product]. lia.
Qed.

(** *** Positions *)
Lemma row_major_range index shape : in_range index shape -> 0 <= row_major index shape < product shape \/
  (shape = [] /\ row_major index shape = 0).
Proof.
  induction 1 as [|i d index shape Hi HR IH]; [now right|]. left. cbn [row_major product].
  destruct IH as [H|[-> H]]; [nia|]. rewrite H. cbn [product]. lia.
Qed.
Lemma row_major_bounds index shape : in_range index shape -> 0 <= row_major index shape < product shape.
Proof. intros H. destruct (row_major_range _ _ H) as [|[-> ->]]; [auto|cbn; lia]. Qed.
Lemma position_bounds f index shape : in_range index shape -> 0 <= position f index shape < product shape.
Proof.
  intros H. unfold position. destruct f; [|now apply row_major_bounds].
  rewrite col_row by (now apply in_range_length). rewrite <- (product_rev shape).
  apply row_major_bounds. now apply in_range_rev in H.
Qed.
Lemma row_major_inj a : forall b shape, in_range a shape -> in_range b shape ->
  row_major a shape = row_major b shape -> a = b.
Proof.
  induction a as [|i a IH]; intros b shape Ha Hb E.
  - inversion Ha; subst. inversion Hb; subst. reflexivity.
  - inversion Ha as [|? d ? sh Hi HRa]; subst. inversion Hb as [|j ? b' ? Hj HRb]; subst.
    cbn [row_major] in E.
    pose proof (row_major_bounds a sh HRa) as Ba. pose proof (row_major_bounds b' sh HRb) as Bb.
    assert (i = j) as -> by nia. f_equal. apply (IH b' sh HRa HRb). lia.
Qed.
Lemma row_major_surj shape : shape_ok shape -> forall p, 0 <= p < product shape ->
  exists index, in_range index shape /\ row_major index shape = p.
Proof.
  induction 1 as [|d shape Hd Hs IH]; intros p Hp; cbn [product] in Hp.
  - exists []. split; [constructor|]. cbn. lia.
  - pose proof (product_nonneg _ Hs) as HN. assert (0 < product shape) as HP by nia.
    pose proof (Z.div_mod p (product shape) ltac:(lia)) as E.
    pose proof (Z.mod_pos_bound p (product shape) HP) as B.
    destruct (IH (p mod product shape) B) as (index & HR & HM).
    exists (p / product shape :: index). split.
    + constructor; [|exact HR]. split; [apply Z.div_pos; lia|]. apply Z.div_lt_upper_bound; lia.
    + cbn [row_major]. lia.
Qed.
Lemma position_inj f a b shape : in_range a shape -> in_range b shape ->
  position f a shape = position f b shape -> a = b.
Proof.
  intros Ha Hb E. unfold position in E. destruct f; [|eapply row_major_inj; eauto].
  rewrite !col_row in E by (now apply in_range_length).
  rewrite <- (rev_involutive a), <- (rev_involutive b). f_equal.
  eapply row_major_inj; [| |exact E]; now apply in_range_rev in Ha, Hb.
Qed.
Lemma position_surj f shape : shape_ok shape -> forall p, 0 <= p < product shape ->
  exists index, in_range index shape /\ position f index shape = p.
Proof.
  intros Hs p Hp. unfold position. destruct f; [|now apply row_major_surj].
  destruct (row_major_surj (rev shape) (Forall_rev Hs) p ltac:(now rewrite product_rev)) as (i & HR & E).
  exists (rev i). assert (in_range (rev i) shape) as HR2.
  { apply in_range_rev. now rewrite rev_involutive. }
  split; [exact HR2|]. rewrite col_row by now apply in_range_length. now rewrite rev_involutive.
Qed.

(** *** Tensors as the API makes them *)
Inductive api_tensor : tensor -> Prop :=
| by_ctor v d shape f t : shape_ok shape -> make_tensor v d shape f = Ok t -> api_tensor t
| by_set t i x t' : api_tensor t -> elem_ok (t_dtype t) x -> t_set t i x = Ok t' -> api_tensor t'
| by_copy t src : api_tensor t -> values_ok (t_dtype t) src -> api_tensor (snd (copy_from t src))
| by_move t src : api_tensor t -> values_ok (t_dtype t) src -> api_tensor (snd (move_from t src))
| by_load v d s g t s' g' : bytes_ok (rest s) -> prior_parses g ->
    load v d s g = (Ok t, s', g') -> api_tensor t.

Definition tensor_wf (t : tensor) : Prop :=
  shape_ok (t_shape t) /\
  t_strides t = get_ravel_strides (t_shape t) (t_fortran t) /\
  t_size t = product (t_shape t) mod 2 ^ 64 /\
  values_ok (t_dtype t) (t_values t).

Lemma zero_elem_ok d : elem_ok d (zero_elem d).
Proof.
  unfold zero_elem. destruct d; cbn [is_string is_complex elem_ok];
    repeat split; auto; try discriminate; try constructor; unfold fits; cbn; lia.
Qed.
Lemma Forall_nth_update {A} (P : A -> Prop) l n x : Forall P l -> P x -> Forall P (nth_update l n x).
Proof.
  intros H Hx. revert n. induction H as [|y l Hy Hl IH]; intros [|n]; cbn; try constructor; auto.
Qed.

(** Values read from bytes are values of the type. *)
Lemma le_value_bound l : bytes_ok l -> fits (length l) (le_value l).
Proof.
  unfold fits. induction 1 as [|b l Hb Hl IH]; [cbn; lia|]. cbn [le_value length].
  rewrite Nat2Z.inj_succ, Z.pow_succ_r by lia. unfold is_byte in Hb. lia.
Qed.
Lemma of_image_fits v l : bytes_ok l -> fits (length l) (of_image v l).
Proof.
  intros H. unfold of_image. destruct (host_big v); [|now apply le_value_bound].
  rewrite <- rev_length. apply le_value_bound. now apply Forall_rev.
Qed.
Lemma elem_of_image_ok v d l : is_string d = false -> bytes_ok l -> length l = Z.to_nat (item_size d) ->
  elem_ok d (elem_of_image v d l).
Proof.
  intros Hs Hl HL. unfold elem_of_image. rewrite item_size_width in HL by exact Hs.
  destruct (is_complex d) eqn:Hc.
  - pose proof (item_size_half d Hc) as HH. cbn [elem_ok].
    split; [destruct d; try discriminate; auto|].
    assert (length (ztake (item_size d / 2) l) = width d) as L1.
    { rewrite ztake_firstn, HH, firstn_length. lia. }
    assert (length (zdrop (item_size d / 2) l) = width d) as L2.
    { rewrite zdrop_skipn, HH, skipn_length. lia. }
    assert (bytes_ok (ztake (item_size d / 2) l) /\ bytes_ok (zdrop (item_size d / 2) l)) as [O1 O2].
    { apply bytes_ok_app. now rewrite ztake_zdrop. }
    split; [rewrite <- L1|rewrite <- L2]; now apply of_image_fits.
  - cbn [elem_ok]. split; [intros ->; discriminate|]. split; [intros ->; discriminate|].
    split; [intros ->; discriminate|]. rewrite <- HL. now apply of_image_fits.
Qed.
Lemma chunks_ok k n : forall l, bytes_ok l -> length l = (n * k)%nat ->
  Forall (fun c => bytes_ok c /\ length c = k) (chunks k n l).
Proof.
  induction n as [|n IH]; intros l Hl HL; cbn [chunks]; [constructor|].
  assert (bytes_ok (firstn k l) /\ bytes_ok (skipn k l)) as [O1 O2].
  { apply bytes_ok_app. now rewrite firstn_skipn. }
  constructor.
  - split; [exact O1|]. rewrite firstn_length. cbn in HL. lia.
  - apply IH; [exact O2|]. rewrite skipn_length. cbn in HL. lia.
Qed.
Lemma chunks_length k n : forall l, length (chunks k n l) = n.
Proof. induction n as [|n IH]; intros l; cbn; [reflexivity|]. now rewrite IH. Qed.

Lemma sget_ok s c s' : bytes_ok (rest s) -> sget s = (c, s') -> bytes_ok (rest s') /\ (c = -1 \/ is_byte c).
Proof.
  intros H. unfold sget. destruct (good s); [destruct (rest s) eqn:E|]; intros [= <- <-]; cbn [rest set_rest set_fail set_eof].
  - rewrite E. auto.
  - inversion H; subst. auto.
  - auto.
Qed.
Lemma getc_n_ok n : forall s b s', bytes_ok (rest s) -> getc_n n s = (b, s') ->
  bytes_ok (rest s') /\ bytes_ok b /\ length b = n.
Proof.
  induction n as [|n IH]; intros s b s' H; cbn [getc_n].
  - intros [= <- <-]. split; [exact H|]. split; [constructor|reflexivity].
  - destruct (sget s) as [c s1] eqn:E. destruct (sget_ok _ _ _ H E) as [H1 Hc].
    destruct (getc_n n s1) as [r s2] eqn:E2. destruct (IH _ _ _ H1 E2) as (H2 & H3 & H4).
    intros [= <- <-]. split; [exact H2|]. split; [|cbn; congruence]. constructor; [|exact H3].
    destruct Hc as [-> | Hc]; [cbn; unfold is_byte; lia|].
    destruct (c =? -1) eqn:E3; [unfold is_byte; lia|exact Hc].
Qed.
Lemma read_swapped_ok k n : forall s b s', bytes_ok (rest s) -> read_swapped k n s = (b, s') ->
  bytes_ok (rest s') /\ bytes_ok b /\ length b = (n * k)%nat.
Proof.
  induction n as [|n IH]; intros s b s' H; cbn [read_swapped].
  - intros [= <- <-]. split; [exact H|]. split; [constructor|reflexivity].
  - destruct (getc_n k s) as [c s1] eqn:E. destruct (getc_n_ok _ _ _ _ H E) as (H1 & H2 & H3).
    destruct (read_swapped k n s1) as [r s2] eqn:E2. destruct (IH _ _ _ H1 E2) as (H4 & H5 & H6).
    intros [= <- <-]. split; [exact H4|]. split.
    + apply bytes_ok_app. split; [now apply Forall_rev|exact H5].
    + rewrite app_length, rev_length. cbn. lia.
Qed.
Lemma sread_ok n s b s' : bytes_ok (rest s) -> sread n s = (b, s') -> bytes_ok b /\ bytes_ok (rest s') /\
  len b <= Z.max 0 n.
Proof.
  intros H. unfold sread. destruct (good s).
  - assert (bytes_ok (ztake n (rest s)) /\ bytes_ok (zdrop n (rest s))) as [H1 H2].
    { apply bytes_ok_app. now rewrite ztake_zdrop. }
    pose proof (len_ztake _ n (rest s)).
    destruct (len (ztake n (rest s)) <? n); intros [= <- <-]; cbn [rest set_rest set_fail set_eof]; repeat split; auto; lia.
  - intros [= <- <-]. cbn. split; [constructor|]. split; [exact H|]. unfold len. cbn. lia.
Qed.
Lemma zrepeat_0_ok n : bytes_ok (zrepeat 0 n).
Proof. unfold zrepeat. apply Forall_forall. intros x Hx. apply repeat_spec in Hx. subst. unfold is_byte. lia. Qed.
Lemma read_wstr_ok v e j : forall s cs s', bytes_ok (rest s) -> read_wstr v e j s = (cs, s') ->
  bytes_ok (rest s') /\ Forall (fits 4) cs.
Proof.
  induction j as [|j IH]; intros s cs s' H; cbn [read_wstr].
  - intros [= <- <-]. split; [exact H|constructor].
  - destruct (getc_n 4 s) as [b s1] eqn:E. destruct (getc_n_ok _ _ _ _ H E) as (H1 & H2 & H3).
    destruct (read_wstr v e j s1) as [r s2] eqn:E2. destruct (IH _ _ _ H1 E2) as [H4 H5].
    intros [= <- <-]. split; [exact H4|].
    assert (fits 4 (of_image v (if is_native v e then b else rev b))) as HF.
    { destruct (is_native v e).
      - rewrite <- H3. now apply of_image_fits.
      - rewrite <- H3, <- rev_length. apply of_image_fits. now apply Forall_rev. }
    destruct (_ =? 0); [exact H5|]. now constructor.
Qed.
Lemma read_wstrs_ok v e m n : forall s es s', bytes_ok (rest s) -> read_wstrs v e m n s = (es, s') ->
  bytes_ok (rest s') /\ values_ok UNICODE_STRING es /\ length es = n.
Proof.
  induction n as [|n IH]; intros s es s' H; cbn [read_wstrs].
  - intros [= <- <-]. split; [exact H|]. split; [constructor|reflexivity].
  - destruct (read_wstr v e m s) as [b s1] eqn:E. destruct (read_wstr_ok _ _ _ _ _ _ H E) as (H1 & H2).
    destruct (read_wstrs v e m n s1) as [r s2] eqn:E2. destruct (IH _ _ _ H1 E2) as (H4 & H5 & H6).
    intros [= <- <-]. split; [exact H4|]. split; [|cbn; congruence]. constructor; [|exact H5]. cbn. auto.
Qed.
Lemma read_values_ok v d e m n s es s' : bytes_ok (rest s) -> 0 <= n -> read_values v d e m n s = (es, s') ->
  bytes_ok (rest s') /\ values_ok d es /\ len es = n.
Proof.
  intros H Hn. unfold read_values. destruct (is_string d) eqn:Hs.
  - intros E. destruct (read_wstrs_ok _ _ _ _ _ _ _ H E) as (H1 & H2 & H3).
    destruct d; try discriminate. repeat split; auto. unfold len. lia.
  - assert (0 < item_size d) as Hk by (destruct d; cbn; lia).
    assert (forall buf, bytes_ok buf -> length buf = (Z.to_nat n * Z.to_nat (item_size d))%nat ->
      values_ok d (map (elem_of_image v d) (chunks (Z.to_nat (item_size d)) (Z.to_nat n) buf)) /\
      len (map (elem_of_image v d) (chunks (Z.to_nat (item_size d)) (Z.to_nat n) buf)) = n) as HC.
    { intros buf Hb HL. split.
      - apply Forall_map. eapply Forall_impl; [|apply chunks_ok; [exact Hb|exact HL]].
        intros c [O1 O2]. now apply elem_of_image_ok.
      - rewrite len_map. unfold len. rewrite chunks_length. lia. }
    destruct (raw_type d || is_native v e).
    + destruct (sread (n * item_size d) s) as [got s1] eqn:E. destruct (sread_ok _ _ _ _ H E) as (H1 & H2 & H3).
      intros [= <- <-]. split; [exact H2|]. apply HC.
      * apply bytes_ok_app. split; [exact H1|apply zrepeat_0_ok].
      * rewrite app_length. unfold zrepeat. rewrite repeat_length. unfold len in *. nia.
    + destruct (read_swapped (Z.to_nat (item_size d)) (Z.to_nat n) s) as [buf s1] eqn:E.
      destruct (read_swapped_ok _ _ _ _ _ H E) as (H1 & H2 & H3).
      intros [= <- <-]. split; [exact H1|]. now apply HC.
Qed.

(** Shapes that come out of the parser hold 64-bit numbers. *)
Lemma span_digits_digits l a b : span_digits l = (a, b) -> Forall digitb a.
Proof.
  revert a b. induction l as [|c l IH]; intros a b; cbn [span_digits].
  - intros [= <- <-]. constructor.
  - destruct (is_digit c) eqn:E.
    + destruct (span_digits l) as [x y]. intros [= <- <-]. constructor; [now apply is_digit_spec|]. now apply (IH x y).
    + intros [= <- <-]. constructor.
Qed.
Lemma digits_value_nonneg l : Forall digitb l -> 0 <= digits_value l.
Proof.
  unfold digits_value. assert (forall z, 0 <= z -> Forall digitb l -> 0 <= fold_left (fun a c => 10 * a + (c - 48)) l z) as H.
  { induction l as [|c l IH]; intros z Hz HF; cbn [fold_left]; [exact Hz|]. inversion HF; subst.
    apply IH; [unfold digitb in *; lia|auto]. }
  intros HF. apply H; [lia|exact HF].
Qed.
Lemma sextract_range s z s' : sextract_u64 s = (Some z, s') -> 0 <= z <= max64.
Proof.
  unfold sextract_u64. destruct (good s); [|discriminate].
  destruct (drop_spaces (rest s)) as [|c t]; [discriminate|].
  set (body := if (c =? 45) || (c =? 43) then t else c :: t).
  destruct (span_digits body) as [ds r] eqn:Es. apply span_digits_digits in Es. apply digits_value_nonneg in Es.
  destruct ds as [|d ds]; [destruct r; discriminate|].
  destruct (digits_value (d :: ds) >? max64) eqn:E; [destruct r; discriminate|].
  destruct (c =? 45).
  - destruct r; intros [= <- _]; pose proof (u64_range (- digits_value (d :: ds))); unfold max64; lia.
  - destruct r; intros [= <- _]; lia.
Qed.
Lemma shape_loop_range f : forall s l, shape_loop f s = Ok l -> shape_ok l.
Proof.
  induction f as [|f IH]; intros s l; cbn [shape_loop]; [discriminate|].
  destruct (sextract_u64 s) as [[d|] s1] eqn:E; [|intros [= <-]; constructor].
  apply sextract_range in E. destruct (speek s1) as [c s2].
  assert (forall s3, obind (shape_loop f s3) (fun r => Ok (d :: r)) = Ok l -> shape_ok l) as H.
  { intros s3 HH. destruct (shape_loop f s3) as [r|?| |?] eqn:E3; try discriminate.
    injection HH as <-. constructor; [exact E|]. eapply IH; eauto. }
  destruct (c =? 44).
  - destruct (sget s2) as [x s']. destruct (skip_ws s') as [[u|?| |?] s'']; cbn [obind]; try discriminate. apply H.
  - cbn [obind]. apply H.
Qed.
Lemma entry_shape v h p h' q : shape_ok (h_shape h) -> p_entry v h p = (Ok h', q) -> shape_ok (h_shape h').
Proof.
  intros Hs E. unfold p_entry in E.
  do 5 (apply bind_ok in E as (? & ? & _ & E)).
  apply bind_ok in E as (h1 & p1 & E1 & E).
  apply bind_ok in E as (? & ? & _ & E). apply bind_ok in E as (? & ? & _ & E). injection E as <- _.
  repeat match type of E1 with (if ?b then _ else _) _ = _ => destruct b end.
  - apply bind_ok in E1 as (c & ? & _ & E1). apply bind_ok in E1 as ([[d e] n] & ? & _ & E1).
    injection E1 as <- _. exact Hs.
  - apply bind_ok in E1 as (b & ? & _ & E1). injection E1 as <- _. exact Hs.
  - apply bind_ok in E1 as (b & ? & E2 & E1). injection E1 as <- _. cbn [h_shape].
    unfold p_shape in E2. do 3 (apply bind_ok in E2 as (? & ? & _ & E2)).
    injection E2 as E2 _. eapply shape_loop_range; eauto.
  - discriminate.
Qed.
Lemma entries_shape v f : forall h p h' q, shape_ok (h_shape h) -> p_entries v f h p = (Ok h', q) -> shape_ok (h_shape h').
Proof.
  induction f as [|f IH]; intros h p h' q Hs E; cbn [p_entries] in E; [discriminate|].
  apply bind_ok in E as (c & p1 & _ & E). destruct (c =? 125).
  - apply bind_ok in E as (? & ? & _ & E). injection E as <- _. exact Hs.
  - apply bind_ok in E as (h1 & p2 & E1 & E). eapply IH; [|exact E]. eapply entry_shape; eauto.
Qed.
Lemma parse_dictionary_shape v d g h : fst (parse_dictionary v d g) = Ok h -> shape_ok (h_shape h).
Proof.
  unfold parse_dictionary.
  destruct ((p_char v 123 ;;; p_entries v (S (length d)) header_uninit)%monad (mk_pst (open_str d) (fst g) (snd g))) as [o q] eqn:E.
  cbn [fst]. intros ->. apply bind_ok in E as (? & p1 & _ & E). eapply entries_shape; [|exact E]. constructor.
Qed.

(** What read_npy_header can return. *)
Lemma read_npy_header_cases v s g o s' g' : read_npy_header v s g = (o, s', g') ->
  ((exists text, o = fst (parse_dictionary v text g) /\ g' = snd (parse_dictionary v text g)) \/
   ((forall h, o <> Ok h) /\ g' = g)) /\
  (bytes_ok (rest s) -> bytes_ok (rest s')).
Proof.
  unfold read_npy_header. destruct (sread STATIC_HEADER_LENGTH s) as [got s1] eqn:E1.
  assert (bytes_ok (rest s) -> bytes_ok (rest s1)) as HB1 by (intros H; eapply (sread_ok _ _ _ _ H E1)).
  cbv zeta. match goal with |- context [match ?x with Ok _ => _ | _ => _ end] => destruct x as [[n s2]|e| |u] eqn:EP end.
  - assert (bytes_ok (rest s) -> bytes_ok (rest s2)) as HB2.
    { intros H. specialize (HB1 H).
      match type of EP with obind ?x _ = _ => destruct x as [[]|?| |?]; try discriminate end. cbn [obind] in EP.
      match type of EP with obind ?x _ = _ => destruct x as [[]|?| |?]; try discriminate end; cbn [obind] in EP.
      - repeat match type of EP with obind ?x _ = _ => destruct x as [?|?| |?]; try discriminate; cbn [obind] in EP end.
        injection EP as _ <-. exact HB1.
      - match type of EP with obind ?x _ = _ => destruct x as [[]|?| |?]; try discriminate end; cbn [obind] in EP.
        + destruct (sread 2 s1) as [ex s3] eqn:E2.
          repeat match type of EP with obind ?x _ = _ => destruct x as [?|?| |?]; try discriminate; cbn [obind] in EP end.
          injection EP as _ <-. eapply (sread_ok _ _ _ _ HB1 E2).
        + injection EP as _ <-. exact HB1. }
    destruct (n >? mem v).
    + intros [= <- <- <-]. split; [right; split; [discriminate|reflexivity]|exact HB2].
    + destruct (sread n s2) as [d s3] eqn:E3.
      destruct (parse_dictionary v (d ++ zrepeat 0 (n - len d)) g) as [o1 g1] eqn:E4.
      intros [= <- <- <-]. split; [left; eexists; rewrite E4; split; reflexivity|].
      intros H. eapply (sread_ok _ _ _ _ (HB2 H) E3).
  - intros [= <- <- <-]. split; [right; split; [discriminate|reflexivity]|exact HB1].
  - intros [= <- <- <-]. split; [right; split; [discriminate|reflexivity]|exact HB1].
  - intros [= <- <- <-]. split; [right; split; [discriminate|reflexivity]|exact HB1].
Qed.
Lemma read_npy_header_prior v s g o s' g' : prior_parses g -> read_npy_header v s g = (o, s', g') -> prior_parses g'.
Proof.
  intros Hg E. destruct (read_npy_header_cases _ _ _ _ _ _ E) as [[(t & _ & ->)|[_ ->]] _]; [now constructor|exact Hg].
Qed.

Lemma make_tensor_wf v d shape f t : shape_ok shape -> make_tensor v d shape f = Ok t ->
  tensor_wf t /\ t_shape t = shape /\ t_fortran t = f /\ t_dtype t = d /\ t_values t = zrepeat (zero_elem d) (get_size shape).
Proof.
  intros Hs. unfold make_tensor. destruct (_ >? _); [discriminate|]. intros [= <-].
  split; [|repeat split]. repeat split; cbn [t_shape t_strides t_fortran t_dtype t_values].
  - exact Hs.
  - unfold t_size. cbn [t_values]. rewrite len_zrepeat, get_size_product.
    pose proof (Z.mod_pos_bound (product shape) (2 ^ 64) ltac:(lia)). lia.
  - unfold values_ok, zrepeat. apply Forall_forall. intros x Hx. apply repeat_spec in Hx. subst. apply zero_elem_ok.
Qed.

Lemma tensor_load_ok v d h s t s' : tensor_load v d h s = (Ok t, s') ->
  exists f e m, h_fortran h = Some f /\ h_dtype h = Some d /\
    t_shape t = h_shape h /\ t_fortran t = f /\ t_dtype t = d /\
    t_strides t = get_ravel_strides (h_shape h) f /\
    read_values v d e m (get_size (h_shape h)) s = (t_values t, s') /\
    (raw_type d = true \/ h_endian h = Some e) /\ (is_string d = false \/ h_maxlen h = Some m).
Proof.
  unfold tensor_load. destruct (h_fortran h) as [f|]; [|discriminate]. cbn [field obind].
  unfold make_tensor. destruct (_ >? mem v); [discriminate|]. cbn [obind].
  destruct (h_dtype h) as [d'|]; [|discriminate]. cbn [field obind].
  destruct (dtype_eqb d' d) eqn:Ed; [|discriminate].
  assert (d' = d) as -> by (destruct d', d; try discriminate; reflexivity).
  cbv zeta.
  destruct (let* e := _ in _) as [[e m]|x| |u] eqn:EE; try discriminate.
  assert (t_size (mk_tensor (h_shape h) (get_ravel_strides (h_shape h) f) f d
     (zrepeat (zero_elem d) (get_size (h_shape h)))) = get_size (h_shape h)) as ->.
  { unfold t_size. cbn [t_values]. rewrite len_zrepeat, get_size_product.
    pose proof (Z.mod_pos_bound (product (h_shape h)) (2 ^ 64) ltac:(lia)). lia. }
  destruct (read_values v d e m (get_size (h_shape h)) s) as [vals s1] eqn:ER.
  intros [= <- <-]. exists f, e, m. cbn [t_shape t_fortran t_dtype t_strides t_values].
  repeat split; auto.
  - destruct (raw_type d); [now left|right]. destruct (h_endian h) as [e0|]; [|discriminate]. cbn [field obind] in EE.
    destruct (if is_string d then field (h_maxlen h) else Ok 0); try discriminate. cbn in EE. congruence.
  - destruct (is_string d); [right|now left].
    destruct (if raw_type d then Ok NATIVE else field (h_endian h)); try discriminate. cbn [obind] in EE.
    destruct (h_maxlen h); [|discriminate]. cbn in EE. congruence.
Qed.

Lemma api_tensor_wf t : api_tensor t -> tensor_wf t.
Proof.
  induction 1 as [v d shape f t Hs H|t i x t' Ht IH Hx H|t src Ht IH Hsrc|t src Ht IH Hsrc|v d s g t s' g' Hb Hg H].
  - now apply (make_tensor_wf _ _ _ _ _ Hs H).
  - unfold t_set in H. destruct (ravel_signed t i) as [p|?| |?]; try discriminate. cbn [obind] in H.
    destruct (znth (t_values t) p); [|discriminate]. injection H as <-.
    destruct IH as (H1 & H2 & H3 & H4). repeat split; cbn [t_shape t_strides t_fortran t_dtype t_values]; auto.
    + unfold t_size, len in *. cbn [t_values]. now rewrite nth_update_length.
    + now apply Forall_nth_update.
  - unfold copy_from. destruct (len src =? t_size t) eqn:E; [|exact IH]. cbn [snd].
    destruct IH as (H1 & H2 & H3 & H4). apply Z.eqb_eq in E. unfold t_size in *.
    assert (skipn (length src) (t_values t) = []) as -> by (apply skipn_all2; unfold len in E; lia).
    rewrite app_nil_r. repeat split; cbn [t_shape t_strides t_fortran t_dtype t_values]; auto.
    unfold t_size. cbn [t_values]. lia.
  - unfold move_from. destruct (len src =? t_size t) eqn:E; [|exact IH]. cbn [snd].
    destruct IH as (H1 & H2 & H3 & H4). apply Z.eqb_eq in E.
    repeat split; cbn [t_shape t_strides t_fortran t_dtype t_values]; auto.
    unfold t_size in *. cbn [t_values]. lia.
  - unfold load in H. destruct (read_npy_header v s g) as [[o s1] g1] eqn:E.
    destruct (read_npy_header_cases _ _ _ _ _ _ E) as [HC HB].
    destruct o as [h|?| |?]; try discriminate.
    destruct (tensor_load v d h s1) as [o2 s2] eqn:E2. injection H as -> <- <-.
    destruct (tensor_load_ok _ _ _ _ _ _ E2) as (f & e & m & H1 & H2 & H3 & H4 & H5 & H6 & H7 & _).
    assert (shape_ok (h_shape h)) as Hs.
    { destruct HC as [(text & HP & _)|[HN _]]; [|exfalso; now apply (HN h)].
      eapply parse_dictionary_shape. symmetry. exact HP. }
    assert (0 <= get_size (h_shape h)) as HG by (rewrite get_size_product; apply Z.mod_pos_bound; lia).
    destruct (read_values_ok _ _ _ _ _ _ _ _ (HB Hb) HG H7) as (_ & HV & HL).
    unfold tensor_wf. rewrite H3, H4, H5, H6. repeat split; auto.
    unfold t_size. rewrite HL. apply get_size_product.
Qed.
