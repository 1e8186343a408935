(** Properties C18-C25: tensors and addressing. *)
From Coq Require Import String ZArith List Bool Lia.
From Verif Require Import Base Stream BaseFacts Dtype Values Spec ValuesFacts Header HeaderFacts
  ParserInv Tensor Npy TensorFacts.
Import ListNotations.
Open Scope Z_scope.

(** Addressing of a well-formed tensor, modulo 2^64. *)
Lemma ravel_exact t i : tensor_wf t -> in_range i (t_shape t) ->
  ravel t i = Ok (match t_shape t with [] => 0 | _ => u64 (position (t_fortran t) i (t_shape t)) end).
Proof.
  intros (Hs & Hst & _) HR. unfold ravel, position. rewrite Hst. pose proof (in_range_length _ _ HR) as HL.
  destruct (t_fortran t).
  - rewrite strides_fortran. pose proof (proj1 (in_range_rev _ _) HR) as HR2.
    pose proof (ravel_loop_in_range _ _ HR2 [] 0) as H. rewrite app_nil_r in H. rewrite H.
    rewrite (col_row _ _ HL). rewrite Z.add_0_l.
    destruct (t_shape t) as [|d sh]; [reflexivity|]. destruct (rev (d :: sh)) eqn:E; [|reflexivity].
    apply (f_equal (@rev Z)) in E. rewrite rev_involutive in E. discriminate.
  - pose proof (ravel_loop_in_range _ _ HR [] 0) as H. rewrite app_nil_r in H. rewrite H, Z.add_0_l. reflexivity.
Qed.
Lemma position_nil f i : position f i [] = 0.
Proof. unfold position. destruct f, i; reflexivity. Qed.
Lemma ravel_u64 t i : tensor_wf t -> in_range i (t_shape t) ->
  ravel t i = Ok (position (t_fortran t) i (t_shape t) mod 2 ^ 64).
Proof.
  intros H HR. rewrite (ravel_exact t i H HR). destruct (t_shape t) eqn:E; [|reflexivity].
  now rewrite position_nil.
Qed.
Lemma ravel_small t i : tensor_wf t -> product (t_shape t) < 2 ^ 64 -> in_range i (t_shape t) ->
  ravel t i = Ok (position (t_fortran t) i (t_shape t)) /\
  0 <= position (t_fortran t) i (t_shape t) < t_size t.
Proof.
  intros H HP HR. rewrite (ravel_u64 t i H HR). pose proof (position_bounds (t_fortran t) i _ HR) as HB.
  destruct H as (Hs & _ & Hsz & _). rewrite Hsz. rewrite (Z.mod_small (product _)) by (split; [now apply product_nonneg|lia]).
  rewrite Z.mod_small by lia. auto.
Qed.
Lemma ravel_bad t i : tensor_wf t -> length i = length (t_shape t) -> Forall (fun x => 0 <= x) i ->
  ~ in_range i (t_shape t) -> ravel t i = Throw InvalidArgument.
Proof.
  intros (Hs & Hst & _) HL HF HN. unfold ravel. rewrite Hst. destruct (t_fortran t).
  - rewrite strides_fortran. apply ravel_loop_bad.
    + now rewrite !rev_length.
    + intros H. apply HN. now apply in_range_rev.
    + now apply Forall_rev.
  - now apply ravel_loop_bad.
Qed.

(** *** C18 *)
Theorem C18_addressing : forall t index,
  api_tensor t -> product (t_shape t) < 2 ^ 64 -> in_range index (t_shape t) ->
  exists x, znth (t_values t) (position (t_fortran t) index (t_shape t)) = Some x /\
    t_at t index = Ok x.
Proof.
  intros t i Ht HP HR. destruct (ravel_small t i (api_tensor_wf _ Ht) HP HR) as [H1 H2].
  destruct (znth_in_range _ _ _ H2) as [x Hx]. exists x. split; [exact Hx|].
  unfold t_at. rewrite H1. cbn [obind]. unfold value_at. now rewrite Hx.
Qed.
Print Assumptions C18_addressing.
Definition case_env : env := mk_env false true (2 ^ 40).
(** A 2x3 tensor: element (1,2) is slot 5 in C order, and (1,0) slot 1 in FORTRAN order. *)
Example C18_case : forall f,
  exists t, make_tensor case_env INT16 [2; 3] f = Ok t /\ api_tensor t /\
    product (t_shape t) < 2 ^ 64 /\ in_range [1; 0] (t_shape t) /\
    position f [1; 0] (t_shape t) = (if f then 1 else 3).
Proof.
  intros f. eexists. split; [reflexivity|]. split.
  - eapply (by_ctor case_env INT16 [2; 3] f); [repeat constructor; unfold max64; lia|reflexivity].
  - cbn [t_shape]. split; [vm_compute; reflexivity|]. split; [repeat constructor; lia|]. destruct f; reflexivity.
Qed.

(** *** C19.  [ravel] is the slot used by every element access. *)
Theorem C19_addressing_bijective : forall t, api_tensor t -> product (t_shape t) < 2 ^ 64 ->
  (forall i, in_range i (t_shape t) -> exists p, ravel t i = Ok p /\ 0 <= p < t_size t) /\
  (forall i j, in_range i (t_shape t) -> in_range j (t_shape t) -> ravel t i = ravel t j -> i = j) /\
  (forall p, 0 <= p < t_size t -> exists i, in_range i (t_shape t) /\ ravel t i = Ok p).
Proof.
  intros t Ht HP. pose proof (api_tensor_wf _ Ht) as HW. split; [|split].
  - intros i HR. destruct (ravel_small t i HW HP HR). eauto.
  - intros i j Hi Hj E. destruct (ravel_small t i HW HP Hi) as [E1 _]. destruct (ravel_small t j HW HP Hj) as [E2 _].
    rewrite E1, E2 in E. injection E as E. eapply position_inj; eauto.
  - intros p Hp. pose proof HW as (Hs & _ & Hsz & _).
    rewrite Hsz, (Z.mod_small (product _)) in Hp by (split; [now apply product_nonneg|lia]).
    destruct (position_surj (t_fortran t) _ Hs p Hp) as (i & HR & E). exists i. split; [exact HR|].
    destruct (ravel_small t i HW HP HR) as [E1 _]. now rewrite E1, E.
Qed.
Print Assumptions C19_addressing_bijective.
Example C19_case : exists t, make_tensor case_env FLOAT64 [4; 0; 5] true = Ok t /\ t_size t = 0 /\
  api_tensor t /\ product (t_shape t) < 2 ^ 64.
Proof.
  eexists. split; [reflexivity|]. split; [reflexivity|]. split.
  - eapply (by_ctor case_env FLOAT64 [4; 0; 5] true); [repeat constructor; unfold max64; lia|reflexivity].
  - vm_compute. reflexivity.
Qed.

(** *** C20 *)
Lemma abs_index_valid index shape : numpy_valid index shape -> shape_ok shape ->
  abs_index index shape = normalised index shape /\ in_range (normalised index shape) shape.
Proof.
  induction 1 as [|i d index shape Hi HR IH]; intros Hs; [split; constructor|].
  inversion Hs; subst. destruct (IH ltac:(assumption)) as [E R]. cbn [abs_index normalised]. rewrite E.
  destruct (i <? 0) eqn:Ei.
  - split; [f_equal|constructor; [lia|exact R]]. rewrite u64_id; [lia|unfold max64 in *; lia].
  - split; [reflexivity|constructor; [lia|exact R]].
Qed.
Lemma abs_index_invalid index shape : length index = length shape -> int32_index index -> shape_ok shape ->
  in_range (abs_index index shape) shape -> numpy_valid index shape.
Proof.
  revert shape. induction index as [|i index IH]; intros [|d shape] HL HI HS HR; try discriminate; [constructor|].
  inversion HI; subst. inversion HS; subst. cbn [abs_index] in HR. inversion HR; subst.
  constructor; [|apply IH; auto]. destruct (i <? 0) eqn:E.
  - split; [|lia]. destruct (Z_lt_le_dec (d + i) 0) as [H|H]; [|lia].
    assert (u64 (d + i) = d + i + 18446744073709551616) as E2.
    { unfold u64. symmetry. apply (Z.mod_unique _ _ (-1)); lia. }
    unfold max64 in *. lia.
  - lia.
Qed.
Lemma abs_index_length index shape : length index = length shape -> length (abs_index index shape) = length shape.
Proof. revert shape. induction index as [|i index IH]; intros [|d shape] H; try discriminate; cbn; auto. Qed.
Lemma abs_index_nonneg index shape : Forall (fun x => 0 <= x) (abs_index index shape).
Proof.
  revert shape. induction index as [|i index IH]; intros [|d shape]; cbn [abs_index]; constructor; auto.
  destruct (i <? 0) eqn:E; [apply u64_range|lia].
Qed.

Theorem C20_signed_indices_follow_numpy : forall t index,
  api_tensor t -> int32_index index ->
  (numpy_valid index (t_shape t) ->
     ravel_signed t index = ravel t (normalised index (t_shape t)) /\
     ravel_signed t index = Ok (position (t_fortran t) (normalised index (t_shape t)) (t_shape t) mod 2 ^ 64) /\
     (product (t_shape t) < 2 ^ 64 -> t_get t index = t_at t (normalised index (t_shape t)) /\
        exists x, t_get t index = Ok x)) /\
  (~ numpy_valid index (t_shape t) ->
     ravel_signed t index = Throw InvalidArgument /\
     t_get t index = Throw InvalidArgument /\ forall x, t_set t index x = Throw InvalidArgument).
Proof.
  intros t index Ht HI. pose proof (api_tensor_wf _ Ht) as HW. pose proof HW as (Hs & _). split.
  - intros HV. destruct (abs_index_valid _ _ HV Hs) as [E HR].
    assert (length index = length (t_shape t)) as HL by (clear - HV; induction HV; cbn; congruence).
    assert (ravel_signed t index = ravel t (normalised index (t_shape t))) as ER.
    { unfold ravel_signed. unfold len. rewrite HL, Z.eqb_refl, E. reflexivity. }
    split; [exact ER|]. split; [rewrite ER; now apply ravel_u64|].
    intros HP. unfold t_get, t_at. rewrite ER. split; [reflexivity|].
    destruct (C18_addressing t _ Ht HP HR) as (x & _ & Hx). exists x. exact Hx.
  - intros HN. assert (ravel_signed t index = Throw InvalidArgument) as ER.
    { unfold ravel_signed. destruct (len index =? len (t_shape t)) eqn:E; [|reflexivity].
      apply Z.eqb_eq in E. assert (length index = length (t_shape t)) as HL by (unfold len in E; lia).
      apply ravel_bad; [exact HW|now apply abs_index_length|apply abs_index_nonneg|].
      intros HR. apply HN. now apply abs_index_invalid. }
    split; [exact ER|]. unfold t_get, t_set. rewrite ER. split; reflexivity.
Qed.
Print Assumptions C20_signed_indices_follow_numpy.
Example C20_case :
  int32_index [-1; 2] /\ numpy_valid [-1; 2] [5; 3] /\ normalised [-1; 2] [5; 3] = [4; 2] /\
  ~ numpy_valid [-6; 2] [5; 3] /\ ~ numpy_valid [1] [5; 3] /\
  numpy_valid [-1] [10000000000] /\ normalised [-1] [10000000000] = [9999999999].
Proof.
  repeat split; try (repeat constructor; lia); try (intros H; inversion H; subst; try lia;
    repeat match goal with H : Forall2 _ _ _ |- _ => inversion H; subst; clear H end; lia).
Qed.

(** *** C21 *)
Theorem C21_unsigned_overload_does_not_check_rank : forall t index,
  api_tensor t -> Forall (fun i => 0 <= i < 2 ^ 64) index ->
  (* the right rank: accepted exactly in range *)
  (length index = length (t_shape t) ->
     (in_range index (t_shape t) -> exists p, ravel t index = Ok p) /\
     (~ in_range index (t_shape t) -> ravel t index = Throw InvalidArgument)) /\
  (* extra components are ignored: trailing ones in C order, leading ones in FORTRAN order *)
  (forall extra, in_range index (t_shape t) ->
     ravel t (if t_fortran t then extra ++ index else index ++ extra) = ravel t index) /\
  (* too short and so far in range: out-of-bounds access *)
  (forall before after, before <> [] -> in_range index after ->
     t_shape t = (if t_fortran t then before ++ after else after ++ before) ->
     ravel t index = Undef OutOfBounds).
Proof.
  intros t index Ht HI. pose proof (api_tensor_wf _ Ht) as HW. pose proof HW as (Hs & Hst & _).
  split; [|split].
  - intros HL. split.
    + intros HR. eexists. now apply ravel_u64.
    + intros HN. apply ravel_bad; auto. eapply Forall_impl; [|exact HI]. cbn. intros. lia.
  - intros extra HR. unfold ravel. rewrite Hst. destruct (t_fortran t).
    + rewrite strides_fortran, rev_app_distr. pose proof (proj1 (in_range_rev _ _) HR) as HR2.
      rewrite (ravel_loop_in_range _ _ HR2 (rev extra)).
      pose proof (ravel_loop_in_range _ _ HR2 [] 0) as H0. rewrite app_nil_r in H0. now rewrite H0.
    + rewrite (ravel_loop_in_range _ _ HR extra).
      pose proof (ravel_loop_in_range _ _ HR [] 0) as H0. rewrite app_nil_r in H0. now rewrite H0.
  - intros before after Hb HR HE. unfold ravel. rewrite Hst, HE. destruct (t_fortran t).
    + rewrite strides_fortran, rev_app_distr. apply ravel_loop_short.
      * now apply in_range_rev in HR.
      * intros E. apply Hb. rewrite <- (rev_involutive before), E. reflexivity.
    + now apply ravel_loop_short.
Qed.
Print Assumptions C21_unsigned_overload_does_not_check_rank.
Example C21_case : exists t, make_tensor case_env UINT8 [2; 3] false = Ok t /\ api_tensor t /\
  ravel t [1; 2; 99] = ravel t [1; 2] /\ ravel t [1; 2] = Ok 5 /\ ravel t [1] = Undef OutOfBounds.
Proof.
  eexists. split; [reflexivity|]. split; [|repeat split].
  eapply (by_ctor case_env UINT8 [2; 3] false); [repeat constructor; unfold max64; lia|reflexivity].
Qed.

(** *** C22 *)
Theorem C22_get_and_set : forall t i x,
  api_tensor t -> product (t_shape t) < 2 ^ 64 -> int32_index i -> numpy_valid i (t_shape t) ->
  exists t', t_set t i x = Ok t' /\
    t_shape t' = t_shape t /\ t_fortran t' = t_fortran t /\ t_dtype t' = t_dtype t /\ t_size t' = t_size t /\
    t_get t' i = Ok x /\
    (forall j, int32_index j -> numpy_valid j (t_shape t) ->
       normalised j (t_shape t) = normalised i (t_shape t) -> t_get t' j = Ok x) /\
    (forall j, int32_index j -> numpy_valid j (t_shape t) ->
       normalised j (t_shape t) <> normalised i (t_shape t) -> t_get t' j = t_get t j) /\
    (forall p, p <> position (t_fortran t) (normalised i (t_shape t)) (t_shape t) ->
       znth (t_values t') p = znth (t_values t) p).
Proof.
  intros t i x Ht HP HI HV. pose proof (api_tensor_wf _ Ht) as HW. pose proof HW as (Hs & _).
  set (pos j := position (t_fortran t) (normalised j (t_shape t)) (t_shape t)).
  assert (forall j, int32_index j -> numpy_valid j (t_shape t) ->
     ravel_signed t j = Ok (pos j) /\ 0 <= pos j < t_size t) as HPos.
  { intros j Hj Hvj. destruct (abs_index_valid _ _ Hvj Hs) as [_ HR].
    destruct (proj1 (C20_signed_indices_follow_numpy t j Ht Hj) Hvj) as (E & _ & _).
    rewrite E. now apply ravel_small. }
  destruct (HPos i HI HV) as [E1 B1]. destruct (znth_in_range _ _ _ B1) as [y Hy].
  unfold t_set. rewrite E1. cbn [obind]. rewrite Hy. eexists. split; [reflexivity|].
  cbn [t_shape t_fortran t_dtype].
  assert (t_size (mk_tensor (t_shape t) (t_strides t) (t_fortran t) (t_dtype t)
            (nth_update (t_values t) (Z.to_nat (pos i)) x)) = t_size t) as HSz.
  { unfold t_size, len. cbn [t_values]. now rewrite nth_update_length. }
  repeat (split; [first [reflexivity|exact HSz]|]).
  set (t' := mk_tensor _ _ _ _ _).
  assert (forall j, ravel_signed t' j = ravel_signed t j) as HRS by reflexivity.
  assert (znth (t_values t') (pos i) = Some x) as HX.
  { unfold t', znth. cbn [t_values]. destruct (pos i <? 0) eqn:E; [lia|].
    apply nth_update_same. unfold t_size, len in B1. lia. }
  assert (forall p, p <> pos i -> znth (t_values t') p = znth (t_values t) p) as HO.
  { intros p Hp. unfold t', znth. cbn [t_values]. destruct (p <? 0) eqn:E; [reflexivity|].
    apply nth_update_other. lia. }
  split; [unfold t_get; rewrite HRS, E1; cbn [obind]; unfold value_at; now rewrite HX|].
  split; [|split].
  - intros j Hj Hvj EN. destruct (HPos j Hj Hvj) as [E2 _]. unfold t_get. rewrite HRS, E2. cbn [obind].
    unfold value_at. replace (pos j) with (pos i) by (unfold pos; now rewrite EN). now rewrite HX.
  - intros j Hj Hvj EN. destruct (HPos j Hj Hvj) as [E2 _]. unfold t_get. rewrite HRS, E2. cbn [obind].
    unfold value_at. rewrite HO; [reflexivity|]. intros E. apply EN. unfold pos in E.
    destruct (abs_index_valid _ _ Hvj Hs) as [_ R2]. destruct (abs_index_valid _ _ HV Hs) as [_ R1].
    eapply position_inj; eauto.
  - exact HO.
Qed.
Print Assumptions C22_get_and_set.
Example C22_case : int32_index [-1; 0] /\ numpy_valid [-1; 0] [2; 3] /\ numpy_valid [1; 0] [2; 3] /\
  normalised [-1; 0] [2; 3] = normalised [1; 0] [2; 3].
Proof. repeat split; repeat constructor; lia. Qed.

(** *** C23 *)
Theorem C23_element_count : forall t, api_tensor t ->
  t_size t = product (t_shape t) mod 2 ^ 64 /\
  (product (t_shape t) < 2 ^ 64 -> t_size t = product (t_shape t)).
Proof.
  intros t Ht. pose proof (api_tensor_wf _ Ht) as (Hs & _ & Hsz & _). split; [exact Hsz|].
  intros HP. rewrite Hsz. apply Z.mod_small. split; [now apply product_nonneg|exact HP].
Qed.
Print Assumptions C23_element_count.
(** Two dimensions of 2^32: the count wraps to 0, the constructor succeeds, and the
    valid index (0,0) addresses outside the buffer. *)
Theorem C23_wrapped_count_is_out_of_bounds_refuted : exists v d shape f t index,
  shape_ok shape /\ make_tensor v d shape f = Ok t /\ in_range index shape /\ numpy_valid index shape /\
  t_at t index = Undef OutOfBounds /\ t_get t index = Undef OutOfBounds.
Proof.
  exists case_env, INT8, [4294967296; 4294967296], false. eexists. exists [0; 0].
  split; [repeat constructor; unfold max64; lia|]. split; [vm_compute; reflexivity|].
  split; [repeat constructor; lia|]. split; [repeat constructor; lia|]. split; vm_compute; reflexivity.
Qed.
Print Assumptions C23_wrapped_count_is_out_of_bounds_refuted.
Example C23_case : exists t, make_tensor case_env UINT16 [] false = Ok t /\ api_tensor t /\ t_size t = 1.
Proof.
  eexists. split; [reflexivity|]. split; [|reflexivity].
  eapply (by_ctor case_env UINT16 [] false); [constructor|reflexivity].
Qed.

(** *** C24 *)
Theorem C24_copy_and_move : forall t src,
  (len src = t_size t ->
     fst (copy_from t src) = Ok tt /\ t_values (snd (copy_from t src)) = src /\
     fst (move_from t src) = Ok tt /\ t_values (snd (move_from t src)) = src) /\
  (len src <> t_size t ->
     copy_from t src = (Throw InvalidArgument, t) /\ move_from t src = (Throw InvalidArgument, t)) /\
  (forall t', t' = snd (copy_from t src) \/ t' = snd (move_from t src) ->
     t_shape t' = t_shape t /\ t_fortran t' = t_fortran t /\ t_dtype t' = t_dtype t /\
     t_size t' = t_size t /\ (forall i, ravel t' i = ravel t i) /\ (forall i, ravel_signed t' i = ravel_signed t i)) /\
  (* pointer and count: the count must match; the pointer must have that many *)
  (forall n, n <> t_size t -> copy_from_ptr t src n = (Throw InvalidArgument, t)) /\
  (t_size t <= len src ->
     fst (copy_from_ptr t src (t_size t)) = Ok tt /\
     t_values (snd (copy_from_ptr t src (t_size t))) = ztake (t_size t) src).
Proof.
  intros t src. split; [|split; [|split; [|split]]].
  - intros H. unfold copy_from, move_from. rewrite H, Z.eqb_refl. cbn [fst snd t_values]. repeat split.
    rewrite (skipn_all2 (t_values t)) by (unfold t_size, len in H; lia). apply app_nil_r.
  - intros H. apply Z.eqb_neq in H. unfold copy_from, move_from. rewrite H. auto.
  - intros t' [-> | ->]; unfold copy_from, move_from; (destruct (len src =? t_size t) eqn:E; cbn [snd]; [|now repeat split]);
      apply Z.eqb_eq in E; repeat split; unfold t_size in *; cbn [t_values] in *.
    + rewrite (skipn_all2 (t_values t)) by (unfold len in E; lia). now rewrite app_nil_r.
    + exact E.
  - intros n H. apply Z.eqb_neq in H. unfold copy_from_ptr. now rewrite H.
  - intros H. unfold copy_from_ptr. rewrite Z.eqb_refl. destruct (len src <? t_size t) eqn:E; [lia|].
    split; [reflexivity|]. cbn [snd t_values]. rewrite zdrop_all by (unfold t_size; lia). apply app_nil_r.
Qed.
Print Assumptions C24_copy_and_move.
Example C24_case : exists t, make_tensor case_env UINT8 [3] false = Ok t /\
  len [Scalar 7; Scalar 8; Scalar 9] = t_size t /\ len [Scalar 7] <> t_size t.
Proof. eexists. repeat split. discriminate. Qed.

(** *** C25.  No bound on the products. *)
Theorem C25_fortran_is_the_transpose : forall v d shape tf tc index,
  shape_ok shape ->
  make_tensor v d shape true = Ok tf -> make_tensor v d (rev shape) false = Ok tc ->
  ravel tf index = ravel tc (rev index) /\
  (forall vals, len vals = t_size tf ->
     t_at (snd (copy_from tf vals)) index = t_at (snd (copy_from tc vals)) (rev index)) /\
  t_size tf = t_size tc.
Proof.
  intros v d shape tf tc index Hs Hf Hc.
  destruct (make_tensor_wf _ _ _ _ _ Hs Hf) as ((_ & S1 & Z1 & _) & A1 & B1 & _).
  destruct (make_tensor_wf _ _ _ _ _ (Forall_rev Hs) Hc) as ((_ & S2 & Z2 & _) & A2 & B2 & _).
  rewrite A1 in *. rewrite A2 in *. rewrite B1 in *. rewrite B2 in *.
  assert (ravel tf index = ravel tc (rev index)) as E.
  { unfold ravel. rewrite B1, B2, S1, S2, A1, A2. now rewrite strides_fortran. }
  assert (t_size tf = t_size tc) as ES by (rewrite Z1, Z2, product_rev; reflexivity).
  split; [exact E|]. split; [|exact ES].
  intros vals HL. unfold copy_from. rewrite <- ES, HL, Z.eqb_refl. cbn [snd]. unfold t_at.
  assert (forall t vs i, ravel (mk_tensor (t_shape t) (t_strides t) (t_fortran t) (t_dtype t) vs) i = ravel t i) as HR by reflexivity.
  rewrite !HR, E. destruct (ravel tc (rev index)) as [p|?| |?]; try reflexivity. cbn [obind].
  unfold value_at. cbn [t_values].
  assert (skipn (length vals) (t_values tf) = []) as -> by (apply skipn_all2; unfold t_size, len in HL; lia).
  assert (skipn (length vals) (t_values tc) = []) as -> by (apply skipn_all2; unfold t_size, len in *; lia).
  reflexivity.
Qed.
Print Assumptions C25_fortran_is_the_transpose.
Example C25_case : exists tf tc, make_tensor case_env UINT8 [2; 3; 4] true = Ok tf /\
  make_tensor case_env UINT8 (rev [2; 3; 4]) false = Ok tc /\ ravel tf [1; 2; 3] = Ok 23 /\ ravel tf [1; 0; 0] = Ok 1.
Proof. eexists _, _. repeat split. Qed.
