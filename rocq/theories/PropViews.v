(** Property C70: the order of the elements in begin()..end(), values() and data(). *)
From Coq Require Import String ZArith List Bool Lia FinFun.
From Verif Require Import Base Stream BaseFacts Dtype Values Spec ValuesFacts Header HeaderFacts
  ParserInv Tensor Npy TensorFacts PropTensor SaveFacts PropNpy Views.
Import ListNotations.
Open Scope Z_scope.

(** ** The specification: the indices in reading order *)

(** 0, 1, ..., d-1. *)
Definition upto (d : Z) : list Z := map Z.of_nat (seq 0 (Z.to_nat d)).
(** All indices of a shape, the last component moving fastest. *)
Fixpoint lex (shape : list Z) : list (list Z) :=
  match shape with
  | [] => [[]]
  | d :: dims => flat_map (fun i => map (cons i) (lex dims)) (upto d)
  end.
(** C order: the last component moves fastest; FORTRAN order: the first. *)
Definition reading_order (fortran : bool) (shape : list Z) : list (list Z) :=
  if fortran then map (@rev Z) (lex (rev shape)) else lex shape.

(** ** Facts *)
Lemma upto_in d i : In i (upto d) <-> 0 <= i < d.
Proof.
  unfold upto. rewrite in_map_iff. split.
  - intros (n & <- & H). apply in_seq in H. lia.
  - intros H. exists (Z.to_nat i). split; [lia|]. apply in_seq. lia.
Qed.
Lemma seq_shift_z m n : map Z.of_nat (seq m n) = map (fun i => Z.of_nat m + i) (upto (Z.of_nat n)).
Proof.
  unfold upto. rewrite Nat2Z.id, map_map. revert m. induction n as [|n IH]; intros m; [reflexivity|].
  cbn [seq map]. f_equal; [lia|]. rewrite IH. rewrite <- (seq_shift n 0), map_map.
  apply map_ext. intros a. lia.
Qed.
Lemma upto_len d : 0 <= d -> len (upto d) = d.
Proof. intros H. unfold upto, len. rewrite map_length, seq_length. lia. Qed.
Lemma upto_add a b : 0 <= a -> 0 <= b -> upto (a + b) = upto a ++ map (fun i => a + i) (upto b).
Proof.
  intros Ha Hb. unfold upto at 1 2. rewrite Z2Nat.inj_add by lia. rewrite seq_app, map_app. f_equal.
  cbn [Nat.add]. rewrite seq_shift_z. rewrite !Z2Nat.id by lia. reflexivity.
Qed.
Lemma upto_mul p : 0 <= p -> forall d, 0 <= d ->
  flat_map (fun i => map (fun j => i * p + j) (upto p)) (upto d) = upto (d * p).
Proof.
  intros Hp d Hd. revert d Hd. apply natlike_ind; [reflexivity|]. intros d Hd IH. rewrite <- Z.add_1_r.
  rewrite upto_add by lia. rewrite flat_map_app, IH. replace ((d + 1) * p) with (d * p + p) by lia.
  rewrite (upto_add (d * p) p) by nia. f_equal. cbn [map upto flat_map]. change (upto 1) with [0]. cbn [map flat_map].
  rewrite app_nil_r, Z.add_0_r. reflexivity.
Qed.
Lemma flat_map_map_comm A B C (f : B -> C) (g : A -> list B) l :
  map f (flat_map g l) = flat_map (fun x => map f (g x)) l.
Proof. induction l as [|x l IH]; [reflexivity|]. cbn. now rewrite map_app, IH. Qed.
Lemma lex_positions shape : shape_ok shape ->
  map (fun i => row_major i shape) (lex shape) = upto (product shape).
Proof.
  induction 1 as [|d l Hd Hl IH]; [reflexivity|]. cbn [lex product]. rewrite flat_map_map_comm.
  rewrite <- upto_mul by (try lia; now apply product_nonneg). rewrite <- IH.
  apply flat_map_ext. intros i. rewrite !map_map. apply map_ext. intros j. reflexivity.
Qed.
Lemma lex_in shape : forall i, In i (lex shape) <-> in_range i shape.
Proof.
  unfold in_range. induction shape as [|d l IH]; intros i; cbn [lex].
  - split; [intros [<-|[]]; constructor|]. intros H. inversion H. now left.
  - rewrite in_flat_map. split.
    + intros (x & Hx & H). apply in_map_iff in H. destruct H as (j & <- & Hj). constructor; [now apply upto_in|now apply IH].
    + intros H. inversion H as [|x ? j ? Hx Hj]; subst. exists x. split; [now apply upto_in|]. apply in_map_iff. exists j.
      split; [reflexivity|now apply IH].
Qed.
Lemma order_in f shape i : In i (reading_order f shape) <-> in_range i shape.
Proof.
  unfold reading_order. destruct f; [|apply lex_in]. rewrite in_map_iff. split.
  - intros (j & <- & H). apply lex_in in H. apply in_range_rev. now rewrite rev_involutive.
  - intros H. exists (rev i). split; [apply rev_involutive|]. apply lex_in. now apply in_range_rev in H.
Qed.
Lemma order_positions f shape : shape_ok shape ->
  map (fun i => position f i shape) (reading_order f shape) = upto (product shape).
Proof.
  intros H. unfold position, reading_order. destruct f; [|now apply lex_positions].
  rewrite map_map. rewrite <- product_rev, <- lex_positions by now apply Forall_rev.
  apply map_ext_in. intros i Hi. apply lex_in in Hi. rewrite col_row.
  - now rewrite rev_involutive.
  - rewrite rev_length. apply in_range_length in Hi. now rewrite rev_length in Hi.
Qed.
Lemma upto_nth n : forall k, (k < Z.to_nat n)%nat -> nth_error (upto n) k = Some (Z.of_nat k).
Proof.
  intros k H. unfold upto. rewrite nth_error_map, nth_error_nth' with (d := 0%nat) by now rewrite seq_length.
  rewrite seq_nth by exact H. reflexivity.
Qed.
Lemma order_nth f shape k i : shape_ok shape -> nth_error (reading_order f shape) k = Some i ->
  in_range i shape /\ position f i shape = Z.of_nat k.
Proof.
  intros Hs H. pose proof (nth_error_In _ _ H) as HI. apply order_in in HI. split; [exact HI|].
  pose proof (order_positions f shape Hs) as HP. apply (f_equal (fun l => nth_error l k)) in HP.
  rewrite nth_error_map, H in HP. cbn [option_map] in HP.
  destruct (Nat.lt_ge_cases k (Z.to_nat (product shape))) as [Hk|Hk].
  - rewrite upto_nth in HP by exact Hk. congruence.
  - assert (nth_error (upto (product shape)) k = None) as E; [|congruence].
    apply nth_error_None. unfold upto. now rewrite map_length, seq_length.
Qed.
Lemma values_by_position (l : list elem) : map (fun k => znth l k) (upto (len l)) = map Some l.
Proof.
  induction l as [|x l IH]; [reflexivity|]. pose proof (len_nonneg _ l) as HL.
  replace (len (x :: l)) with (1 + len l) by (unfold len; cbn [length]; lia).
  rewrite upto_add by lia. change (upto 1) with [0]. rewrite map_app, map_map. cbn [map app]. f_equal.
  rewrite <- IH. apply map_ext_in. intros k Hk. apply upto_in in Hk. unfold znth.
  destruct (1 + k <? 0) eqn:E1; [lia|]. destruct (k <? 0) eqn:E2; [lia|].
  replace (Z.to_nat (1 + k)) with (S (Z.to_nat k)) by lia. reflexivity.
Qed.
Lemma znth_nat A (l : list A) k : znth l (Z.of_nat k) = nth_error l k.
Proof. unfold znth. replace (Z.of_nat k <? 0) with false by (symmetry; apply Z.ltb_ge; apply Nat2Z.is_nonneg). now rewrite Nat2Z.id. Qed.
Lemma skip_nth A (l : list A) k x : nth_error l k = Some x -> skipn k l = x :: skipn (S k) l.
Proof.
  revert l. induction k as [|k IH]; intros [|y l] H; try discriminate.
  - now injection H as ->.
  - cbn [skipn]. now apply IH.
Qed.
Lemma walk_skip t n : forall k, (k + n = length (t_values t))%nat ->
  t_walk n t (Z.of_nat k) = Ok (skipn k (t_values t)).
Proof.
  induction n as [|n IH]; intros k H; cbn [t_walk]; unfold t_end, len.
  - assert (k = length (t_values t)) as -> by lia. rewrite Z.eqb_refl. now rewrite skipn_all.
  - destruct (Z.of_nat k =? _) eqn:E; [apply Z.eqb_eq in E; lia|]. unfold t_peek, t_begin, t_buffer. rewrite Z.add_0_l, znth_nat.
    destruct (nth_error (t_values t) k) as [x|] eqn:EX; [|apply nth_error_None in EX; lia].
    cbn [obind]. replace (Z.of_nat k + 1) with (Z.of_nat (S k)) by lia. rewrite IH by lia. cbn [obind].
    now rewrite (skip_nth _ _ _ _ EX).
Qed.
Lemma visits_values t : visits t = Ok (t_values t).
Proof. unfold visits, t_begin. exact (walk_skip t (length (t_values t)) 0 eq_refl). Qed.

Definition with_values (t : tensor) (l : list elem) : tensor :=
  mk_tensor (t_shape t) (t_strides t) (t_fortran t) (t_dtype t) l.
Lemma nth_update_split A (l : list A) k y x : nth_error l k = Some y ->
  nth_update l k x = firstn k l ++ x :: skipn (S k) l.
Proof.
  revert l. induction k as [|k IH]; intros [|z l] H; try discriminate; [reflexivity|].
  cbn [nth_update firstn skipn app]. f_equal. now apply IH.
Qed.
Lemma update_from f n : forall a b t, t_values t = a ++ b -> length b = n ->
  t_update f n t (len a) = Ok (with_values t (a ++ map f b)).
Proof.
  induction n as [|n IH]; intros a b t E HL; cbn [t_update]; unfold t_end; rewrite E.
  - destruct b; [|discriminate]. rewrite app_nil_r, Z.eqb_refl. cbn [map]. rewrite app_nil_r in *. unfold with_values. rewrite <- E.
    now destruct t.
  - destruct b as [|x b]; [discriminate|]. cbn [length] in HL. injection HL as HL. rewrite len_app.
    destruct (len a =? len a + len (x :: b)) eqn:E1; [apply Z.eqb_eq in E1; unfold len in E1; cbn [length] in E1; lia|].
    unfold t_peek, t_poke, t_begin, t_buffer. rewrite Z.add_0_l. rewrite E. unfold len at 1 2 3. rewrite !znth_nat.
    rewrite nth_error_app2, Nat.sub_diag by lia. cbn [nth_error obind]. rewrite Nat2Z.id.
    rewrite (nth_update_split _ _ _ x) by (rewrite nth_error_app2, Nat.sub_diag by lia; reflexivity).
    rewrite firstn_app, firstn_all, Nat.sub_diag. cbn [firstn]. rewrite app_nil_r.
    rewrite skipn_app. rewrite (skipn_all2 a) by lia. replace (S (length a) - length a)%nat with 1%nat by lia. cbn [skipn app].
    replace (len a + 1) with (len (a ++ [f x])) by (rewrite len_app; reflexivity).
    rewrite (IH (a ++ [f x]) b); [|cbn [t_values]; now rewrite <- app_assoc|exact HL].
    cbn [map]. rewrite <- app_assoc. reflexivity.
Qed.
Lemma update_all_values f t : update_all f t = Ok (with_values t (map f (t_values t))).
Proof.
  unfold update_all, t_begin. exact (update_from f (length (t_values t)) [] (t_values t) t eq_refl eq_refl).
Qed.
Lemma with_values_copy t l : len l = t_size t -> with_values t l = snd (copy_from t l).
Proof. intros H. unfold copy_from. rewrite H, Z.eqb_refl. cbn [snd]. rewrite skipn_all2, app_nil_r; [reflexivity|]. unfold t_size, len in H. lia. Qed.
Lemma api_with t l : api_tensor t -> len l = t_size t -> values_ok (t_dtype t) l -> api_tensor (with_values t l).
Proof. intros Ht HL Hv. rewrite with_values_copy by exact HL. now apply by_copy. Qed.

(** ** C70 *)

(** The elements come once each, in reading order: walking from begin() to end(),
    reading values() or data(), gives exactly the elements at those indices. *)
Theorem C70_reading_order : forall t, api_tensor t -> product (t_shape t) < 2 ^ 64 ->
  let indices := reading_order (t_fortran t) (t_shape t) in
  (forall i, In i indices <-> in_range i (t_shape t)) /\ NoDup indices /\
  (exists l, visits t = Ok l /\ t_buffer t = l /\ map Ok l = map (t_at t) indices) /\
  (forall k, t_peek t (Z.of_nat k) =
             match nth_error indices k with Some i => t_at t i | None => Undef OutOfBounds end) /\
  (forall k, k < 0 -> t_peek t k = Undef OutOfBounds) /\
  t_end t - t_begin t = t_size t /\ t_size t = product (t_shape t).
Proof.
  intros t Ht HP ix. pose proof (api_tensor_wf _ Ht) as HW. pose proof HW as (Hs & _ & Hsz & _).
  rewrite Z.mod_small in Hsz by (split; [now apply product_nonneg|exact HP]).
  assert (map (t_at t) ix = map Ok (t_values t)) as HM.
  { transitivity (map (fun o => match o with Some x => Ok x | None => Undef OutOfBounds end) (map Some (t_values t)));
      [|now rewrite map_map].
    rewrite <- values_by_position. unfold t_size in Hsz. rewrite Hsz. rewrite <- (order_positions (t_fortran t)) by exact Hs.
    rewrite !map_map. apply map_ext_in. intros i Hi. apply order_in in Hi.
    destruct (ravel_small t i HW HP Hi) as [E _]. unfold t_at. rewrite E. reflexivity. }
  split; [intros i; apply order_in|]. split; [|split; [|split; [|split]]].
  - apply (NoDup_map_inv (fun i => position (t_fortran t) i (t_shape t))). unfold ix. rewrite order_positions by exact Hs.
    unfold upto. apply FinFun.Injective_map_NoDup; [intros a b H; lia|apply seq_NoDup].
  - exists (t_values t). split; [apply visits_values|]. split; [reflexivity|]. now rewrite HM.
  - intros k. unfold t_peek, t_begin, t_buffer. rewrite Z.add_0_l, znth_nat.
    apply (f_equal (fun l => nth_error l k)) in HM. rewrite !nth_error_map in HM.
    destruct (nth_error ix k) as [i|], (nth_error (t_values t) k) as [x|]; cbn [option_map] in HM; congruence.
  - intros k Hk. unfold t_peek, t_begin, t_buffer, znth. rewrite Z.add_0_l. destruct (k <? 0) eqn:E; [reflexivity|lia].
  - split; [unfold t_end, t_begin, t_size; lia|exact Hsz].
Qed.
Print Assumptions C70_reading_order.

(** Writing through the [k]-th position is assigning the element at the [k]-th index,
    and nothing else changes. *)
Theorem C70_writing_through : forall t k i x, api_tensor t -> product (t_shape t) < 2 ^ 64 ->
  nth_error (reading_order (t_fortran t) (t_shape t)) k = Some i ->
  exists t', t_poke t (Z.of_nat k) x = Ok t' /\ t_assign t i x = Ok t' /\
    (Forall (fun d => d <= 2 ^ 31) (t_shape t) -> t_set t i x = Ok t') /\
    (elem_ok (t_dtype t) x -> api_tensor t') /\
    t_shape t' = t_shape t /\ t_fortran t' = t_fortran t /\ t_dtype t' = t_dtype t /\
    t_at t' i = Ok x /\ (forall j, in_range j (t_shape t) -> j <> i -> t_at t' j = t_at t j).
Proof.
  intros t k i x Ht HP HN. pose proof (api_tensor_wf _ Ht) as HW. pose proof HW as (Hs & _ & _ & Hv).
  destruct (order_nth _ _ _ _ Hs HN) as [HI HK]. destruct (ravel_small t i HW HP HI) as [ER HB]. rewrite HK in ER, HB.
  destruct (znth_in_range _ _ _ HB) as [y Hy].
  assert (t_poke t (Z.of_nat k) x = Ok (with_values t (nth_update (t_values t) k x))) as HPk.
  { unfold t_poke, t_begin, t_buffer. rewrite Z.add_0_l, Hy, Nat2Z.id. reflexivity. }
  eexists. split; [exact HPk|]. split; [unfold t_assign; rewrite ER; exact HPk|]. split; [|split; [|split; [|split; [|split; [|split]]]]]; try reflexivity.
  - intros Hd. unfold t_set.
    assert (ravel_signed t i = Ok (Z.of_nat k)) as ->.
    { unfold ravel_signed. pose proof (in_range_length _ _ HI) as HL. unfold len. rewrite HL, Z.eqb_refl.
      replace (abs_index i (t_shape t)) with i; [exact ER|]. clear - HI. induction HI as [|a d l m Ha _ IH]; [reflexivity|].
      cbn [abs_index]. destruct (a <? 0) eqn:E; [lia|]. now rewrite <- IH. }
    cbn [obind]. rewrite Hy, Nat2Z.id. reflexivity.
  - intros Hx. apply api_with; [exact Ht| |].
    + unfold t_size, len. now rewrite nth_update_length.
    + now apply Forall_nth_update.
  - unfold t_at. change (ravel (with_values t _) i) with (ravel t i). rewrite ER. cbn [obind]. unfold value_at. cbn [with_values t_values].
    rewrite znth_nat, nth_update_same; [reflexivity|]. unfold t_size, len in HB. lia.
  - intros j Hj Hne. unfold t_at. change (ravel (with_values t _) j) with (ravel t j).
    destruct (ravel_small t j HW HP Hj) as [EJ BJ]. rewrite EJ. cbn [obind]. unfold value_at. cbn [with_values t_values].
    rewrite <- (Z2Nat.id (position _ j _)) by lia. rewrite !znth_nat. rewrite nth_update_other; [reflexivity|].
    intros E. apply Hne. apply (position_inj (t_fortran t) j i (t_shape t) Hj HI). lia.
Qed.
Print Assumptions C70_writing_through.
Theorem C70_outside_is_undefined : forall t k x, ~ 0 <= k < t_size t ->
  t_poke t k x = Undef OutOfBounds /\ t_peek t k = Undef OutOfBounds.
Proof.
  intros t k x H. unfold t_poke, t_peek, t_begin, t_buffer. rewrite Z.add_0_l.
  assert (znth (t_values t) k = None) as ->; [|auto]. unfold znth, t_size, len in *.
  destruct (k <? 0) eqn:E; [reflexivity|]. apply nth_error_None. lia.
Qed.
Print Assumptions C70_outside_is_undefined.

(** [for (T &x : t) x = f(x);] applies [f] to the element at every index. *)
Theorem C70_in_place_loop : forall t f, api_tensor t -> product (t_shape t) < 2 ^ 64 ->
  (forall x, elem_ok (t_dtype t) x -> elem_ok (t_dtype t) (f x)) ->
  exists t', update_all f t = Ok t' /\ api_tensor t' /\
    t_shape t' = t_shape t /\ t_fortran t' = t_fortran t /\ t_dtype t' = t_dtype t /\
    (forall i, in_range i (t_shape t) -> exists x, t_at t i = Ok x /\ t_at t' i = Ok (f x)).
Proof.
  intros t f Ht HP Hf. pose proof (api_tensor_wf _ Ht) as HW. pose proof HW as (Hs & _ & _ & Hv).
  eexists. split; [apply update_all_values|]. split; [|split; [|split; [|split]]]; try reflexivity.
  - apply api_with; [exact Ht| |].
    + unfold t_size, len. now rewrite map_length.
    + unfold values_ok in *. rewrite Forall_map. eapply Forall_impl; [|exact Hv]. exact Hf.
  - intros i Hi. destruct (C18_addressing t i Ht HP Hi) as (x & Hx & Ex). exists x. split; [exact Ex|].
    unfold t_at in *. change (ravel (with_values t _) i) with (ravel t i).
    destruct (ravel_small t i HW HP Hi) as [ER BI]. rewrite ER in *. cbn [obind] in *. unfold value_at in *. cbn [with_values t_values].
    set (p := position _ i _) in *. rewrite <- (Z2Nat.id p) by lia. rewrite <- (Z2Nat.id p) in Hx by lia.
    rewrite znth_nat in Hx |- *. rewrite nth_error_map, Hx. reflexivity.
Qed.
Print Assumptions C70_in_place_loop.

(** The data section of a saved file holds the elements in reading order, each in the
    standard encoding (padded with zeros if strings). *)
Theorem C70_file_order : forall v t e,
  api_tensor t -> product (t_shape t) < 2 ^ 64 -> save_fits v t e ->
  (is_complex_type (t_dtype t) -> means_big (host_big v) e = host_big v) ->
  exists header xs, save v t e = Ok (header ++
      flat_map (fun x => let b := standard (means_big (host_big v) e) (t_dtype t) x in
                b ++ zrepeat 0 (array_item (t_dtype t) (t_values t) - len b)) xs) /\
    map Ok xs = map (t_at t) (reading_order (t_fortran t) (t_shape t)) /\
    len header mod 64 = 0.
Proof.
  intros v t e Ht HP HF HC. destruct (C26_file_contents v t e Ht HF HC) as (lo & hi & sp & data & ES & HSp & HL & HM & HD).
  destruct (C70_reading_order t Ht HP) as (_ & _ & (l & _ & <- & EL) & _).
  exists ([147; 78; 85; 77; 80; 89; 1; 0; lo; hi] ++
    (python_dict (array_descr (t_dtype t) (means_big (host_big v) e) (t_values t)) (t_fortran t) (t_shape t)) ++ sp ++ [10]), (t_values t).
  split; [rewrite ES, HD, <- !app_assoc; reflexivity|]. split; [exact EL|].
  rewrite len_app, <- HL. replace (len _ + (lo + 256 * hi)) with (10 + lo + 256 * hi); [exact HM|]. unfold len. cbn [length]. lia.
Qed.
Print Assumptions C70_file_order.

(** A 2x3 tensor, in both orders. *)
Example C70_case : forall f,
  reading_order f [2; 3] = (if f then [[0; 0]; [1; 0]; [0; 1]; [1; 1]; [0; 2]; [1; 2]]
                            else [[0; 0]; [0; 1]; [0; 2]; [1; 0]; [1; 1]; [1; 2]]) /\
  exists t, make_tensor case_env INT16 [2; 3] f = Ok t /\ api_tensor t /\ product (t_shape t) < 2 ^ 64 /\
    save_fits case_env t BIG /\
    nth_error (reading_order (t_fortran t) (t_shape t)) 3%nat = Some (if f then [1; 1] else [1; 0]) /\
    (exists t', t_poke t 3 (Scalar 9) = Ok t' /\ t_get t' (if f then [1; 1] else [1; 0]) = Ok (Scalar 9) /\
       t_get t' (if f then [1; 0] else [1; 1]) = Ok (Scalar 0)).
Proof.
  intros f. split; [destruct f; reflexivity|]. eexists. split; [reflexivity|]. split.
  - eapply (by_ctor case_env INT16 [2; 3] f); [repeat constructor; unfold max64; lia|reflexivity].
  - split; [vm_compute; reflexivity|]. split; [|split; [destruct f; reflexivity|]].
    + destruct f; (split; [vm_compute; intros HX; discriminate HX|vm_compute; intros; try reflexivity; try discriminate]).
    + eexists. split; [reflexivity|]. destruct f; split; reflexivity.
Qed.
(** No elements, and one element without dimensions. *)
Example C70_edge_cases : forall f,
  reading_order f [2; 0; 3] = [] /\ reading_order f [] = [[]].
Proof. intros [|]; split; reflexivity. Qed.
