(** C56: tensor objects behave as values; moved-from tensors. *)
From Coq Require Import String ZArith List Bool Lia.
From Verif Require Import Base Stream BaseFacts Dtype Values Spec ValuesFacts Header HeaderFacts ParseFacts ParserInv
  Tensor TensorFacts PropTensor Npy SaveFacts PropNpy TensorVars.
Import ListNotations.
Open Scope Z_scope.

(** What a program that knows nothing of vectors expects of its variables: each holds
    a tensor, or nothing once it was moved from. *)
Definition expected := nat -> option tensor.
Definition hold (s : expected) (i : nat) (x : option tensor) : expected := fun k => if (k =? i)%nat then x else s k.
(** A step, as seen from outside: a new value of some variables, or an exception
    ([None]: nothing changes).  Storing an element into a moved-from variable is
    not allowed: see [allowed]. *)
Definition expect (v : env) (d : dtype) (a : action) (s : expected) : option expected :=
  match a with
  | AMake i shape f => match make_tensor v d shape f with Ok t => Some (hold s i (Some t)) | _ => None end
  | ACopyMake i j | ACopy i j => Some (hold s i (s j))
  | AMoveMake i j => Some (hold (hold s j None) i (s j))
  | AMove i j => Some (hold (hold s i (s j)) j None)
  | ASet i index x => match s i with
                      | Some t => match t_set t index x with Ok t' => Some (hold s i (Some t')) | _ => None end
                      | None => None
                      end
  | AFill i src => match s i with
                   | Some t => match copy_from t src with (Ok _, t') => Some (hold s i (Some t')) | _ => None end
                   | None => match src with [] => Some s | _ => None end
                   end
  end.
Definition allowed (d : dtype) (a : action) (s : expected) : Prop :=
  match a with
  | AMake _ shape _ => shape_ok shape
  | ASet i index x => elem_ok d x /\ match s i with
                      | None => index <> []
                      | Some t => int32_index index /\ product (t_shape t) < 2 ^ 64 end
  | AFill _ src => values_ok d src
  | _ => True
  end.
Fixpoint expects (v : env) (d : dtype) (l : list action) (s : expected) : expected :=
  match l with
  | [] => s
  | a :: t => expects v d t (match expect v d a s with Some s' => s' | None => s end)
  end.
Fixpoint all_allowed (v : env) (d : dtype) (l : list action) (s : expected) : Prop :=
  match l with
  | [] => True
  | a :: t => allowed d a s /\ all_allowed v d t (match expect v d a s with Some s' => s' | None => s end)
  end.

(** A moved-from tensor: no dimensions, and no elements either. *)
Definition hollow (d : dtype) (t : tensor) : Prop := exists f, t = mk_tensor [] [] f d [].
Definition agrees (d : dtype) (s : expected) (m : objects) : Prop :=
  forall i, match s i with
            | Some t => m i = t /\ api_tensor t /\ t_dtype t = d
            | None => hollow d (m i)
            end.

Lemma put_same m i t : put m i t i = t.
Proof. unfold put. now rewrite Nat.eqb_refl. Qed.
Lemma put_other m i k t : k <> i -> put m i t k = m k.
Proof. intros H. unfold put. apply Nat.eqb_neq in H. now rewrite H. Qed.
Lemma tensor_eta t : mk_tensor (t_shape t) (t_strides t) (t_fortran t) (t_dtype t) (t_values t) = t.
Proof. now destruct t. Qed.

Lemma copy_assign_at i j m k : copy_assign i j m k = if (k =? i)%nat then m j else m k.
Proof.
  unfold copy_assign, copy_member, put.
  destruct (Nat.eqb_spec k i) as [->|Hk].
  - rewrite !Nat.eqb_refl. destruct (Nat.eqb_spec j i) as [->|Hj].
    + now destruct (m i).
    + destruct (m i), (m j). reflexivity.
  - reflexivity.
Qed.
Lemma move_assign_at i j m k : move_assign i j m k =
  if (k =? j)%nat then mk_tensor [] [] (t_fortran (m j)) (t_dtype (m j)) []
  else if (k =? i)%nat then m j else m k.
Proof.
  unfold move_assign, move_member, put.
  destruct (Nat.eqb_spec k j) as [->|Hkj].
  - rewrite !Nat.eqb_refl. destruct (Nat.eqb_spec j i) as [->|Hj]; [rewrite ?Nat.eqb_refl; now destruct (m i)|].
    destruct (Nat.eqb_spec i j) as [->|Hi]; [congruence|]. destruct (m i), (m j). reflexivity.
  - destruct (Nat.eqb_spec k i) as [->|Hki]; [|reflexivity].
    rewrite !Nat.eqb_refl. destruct (Nat.eqb_spec j i) as [->|Hj]; [congruence|].
    destruct (Nat.eqb_spec i j) as [->|Hi]; [congruence|]. destruct (m i), (m j). reflexivity.
Qed.
Lemma move_construct_at i j m k : move_construct i j m k =
  if (k =? i)%nat then m j else if (k =? j)%nat then mk_tensor [] [] (t_fortran (m j)) (t_dtype (m j)) [] else m k.
Proof. unfold move_construct, put. cbv zeta. destruct (k =? i)%nat; [apply tensor_eta|reflexivity]. Qed.

Lemma copy_from_hollow f d src : copy_from (mk_tensor [] [] f d []) src =
  match src with [] => (Ok tt, mk_tensor [] [] f d []) | _ => (Throw InvalidArgument, mk_tensor [] [] f d []) end.
Proof.
  unfold copy_from, t_size. cbn [t_values]. destruct src as [|x src]; [reflexivity|].
  rewrite len_cons. change (len (@nil elem)) with 0. pose proof (len_nonneg _ src).
  assert ((len src + 1 =? 0) = false) as E by (apply Z.eqb_neq; lia). 
  replace (1 + len src) with (len src + 1) by lia. now rewrite ?E.
Qed.
Lemma set_hollow f d index x : index <> [] -> t_set (mk_tensor [] [] f d []) index x = Throw InvalidArgument.
Proof.
  intros H. unfold t_set, ravel_signed. cbn [t_shape]. destruct index as [|i index]; [congruence|].
  rewrite len_cons. change (len (@nil Z)) with 0. pose proof (len_nonneg _ index).
  assert ((1 + len index =? 0) = false) as -> by (apply Z.eqb_neq; lia). reflexivity.
Qed.
Lemma t_set_dtype t i x t' : t_set t i x = Ok t' -> t_dtype t' = t_dtype t.
Proof.
  unfold t_set. destruct (ravel_signed t i) as [p| | |]; try discriminate. cbn [obind].
  destruct (znth (t_values t) p); [|discriminate]. now intros [= <-].
Qed.

Lemma numpy_valid_dec index shape : numpy_valid index shape \/ ~ numpy_valid index shape.
Proof.
  revert shape. induction index as [|i index IH]; intros [|x shape]; [left; constructor|right; intros H; inversion H..|].
  destruct (IH shape) as [H|H]; [|right; intros H2; inversion H2; auto].
  destruct (Z_le_gt_dec (- x) i); [|right; intros H2; inversion H2; lia].
  destruct (Z_lt_ge_dec i x); [left; constructor; auto; lia|right; intros H2; inversion H2; lia].
Qed.
Lemma t_set_outcome t index x : api_tensor t -> int32_index index -> product (t_shape t) < 2 ^ 64 ->
  (exists t', t_set t index x = Ok t') \/ t_set t index x = Throw InvalidArgument.
Proof.
  intros Ht HI HP. destruct (numpy_valid_dec index (t_shape t)) as [HV|HV].
  - left. destruct (C22_get_and_set t index x Ht HP HI HV) as (t' & H & _). eauto.
  - right. destruct (C20_signed_indices_follow_numpy t index Ht HI) as [_ H]. now apply H.
Qed.

Lemma act_agrees v d a s m : agrees d s m -> allowed d a s ->
  match act v d a m with
  | Ok m' => exists s', expect v d a s = Some s' /\ agrees d s' m'
  | Throw _ => expect v d a s = None
  | AssertFail => False
  | Undef _ => False
  end.
Proof.
  intros HA HP. 
  assert (forall i j, agrees d (hold s i (s j)) (fun k => if (k =? i)%nat then m j else m k)) as Hcopy.
  { intros i j k. unfold hold. destruct (k =? i)%nat; [apply (HA j)|apply (HA k)]. }
  destruct a as [i shape f|i j|i j|i j|i j|i index x|i src]; cbn [act expect allowed] in *.
  - destruct (make_tensor v d shape f) as [t|x| |u] eqn:E; cbn [obind].
    + eexists. split; [reflexivity|]. intros k. unfold hold, put. destruct (k =? i)%nat; [|apply HA].
      split; [reflexivity|]. split; [eapply by_ctor; [exact HP|exact E]|].
      unfold make_tensor in E. destruct (_ >? mem v); [discriminate|]. now injection E as <-.
    + reflexivity.
    + unfold make_tensor in E. destruct (_ >? mem v); discriminate.
    + unfold make_tensor in E. destruct (_ >? mem v); discriminate.
  - eexists. split; [reflexivity|]. intros k. specialize (Hcopy i j k). unfold copy_construct, put.
    rewrite tensor_eta. exact Hcopy.
  - eexists. split; [reflexivity|]. intros k. rewrite move_construct_at. unfold hold.
    destruct (k =? i)%nat; [apply (HA j)|]. destruct (Nat.eqb_spec k j) as [->|]; [|apply HA].
    exists (t_fortran (m j)). f_equal. specialize (HA j). destruct (s j); [now destruct HA as (-> & _ & ->)|].
    destruct HA as [f ->]. reflexivity.
  - eexists. split; [reflexivity|]. intros k. rewrite copy_assign_at. apply Hcopy.
  - eexists. split; [reflexivity|]. intros k. rewrite move_assign_at. unfold hold.
    destruct (Nat.eqb_spec k j) as [->|].
    + exists (t_fortran (m j)). f_equal. specialize (HA j). destruct (s j); [now destruct HA as (-> & _ & ->)|].
      destruct HA as [f ->]. reflexivity.
    + destruct (k =? i)%nat; [apply (HA j)|apply (HA k)].
  - destruct HP as [Hx HP]. pose proof (HA i) as Hi. destruct (s i) as [t|] eqn:Es.
    + destruct Hi as (Hi & Hapi & Hd). rewrite Hi. destruct HP as [HI Hsz].
      pose proof (t_set_outcome t index x Hapi HI Hsz) as HO.
      destruct (t_set t index x) as [t'|e| |u] eqn:E; cbn [obind].
      * eexists. split; [reflexivity|]. intros k. unfold hold, put. destruct (k =? i)%nat; [|apply HA].
        split; [reflexivity|]. split; [eapply by_set; [exact Hapi|rewrite Hd; exact Hx|exact E]|].
        rewrite (t_set_dtype _ _ _ _ E). exact Hd.
      * reflexivity.
      * destruct HO as [[? ?]|?]; discriminate.
      * destruct HO as [[? ?]|?]; discriminate.
    + destruct Hi as [f ->]. rewrite set_hollow by exact HP. reflexivity.
  - pose proof (HA i) as Hi. destruct (s i) as [t|] eqn:Es.
    + destruct Hi as (Hi & Hapi & Hd). rewrite Hi. unfold copy_from at 1. unfold copy_from.
      destruct (len src =? t_size t) eqn:E; cbn [obind]; [|reflexivity].
      eexists. split; [reflexivity|]. intros k. unfold hold, put. destruct (k =? i)%nat; [|apply HA].
      split; [reflexivity|]. split; [|exact Hd].
      pose proof (by_copy t src Hapi ltac:(rewrite Hd; exact HP)) as HB. unfold copy_from in HB. rewrite E in HB. exact HB.
    + destruct Hi as [f Hi]. rewrite Hi. rewrite copy_from_hollow. destruct src as [|x src]; cbn [obind]; [|reflexivity].
      eexists. split; [reflexivity|]. intros k. unfold put. destruct (Nat.eqb_spec k i) as [->|]; [|apply HA].
      rewrite Es. exists f. reflexivity.
Qed.

(** *** C56.  Any program of constructions, copies, moves, element stores and fills. *)
Theorem C56_tensors_are_values : forall v d program s m,
  agrees d s m -> all_allowed v d program s ->
  exists m', acts v d program m = Ok m' /\ agrees d (expects v d program s) m'.
Proof.
  intros v d program. induction program as [|a l IH]; intros s m HA HP.
  - exists m. split; [reflexivity|exact HA].
  - destruct HP as [HP1 HP2]. cbn [acts expects]. pose proof (act_agrees v d a s m HA HP1) as H.
    destruct (act v d a m) as [m'|x| |u]; try contradiction.
    + destruct H as (s' & E & HA'). rewrite E in *. now apply IH.
    + rewrite H in *. now apply IH.
Qed.
Print Assumptions C56_tensors_are_values.

(** std::swap exchanges two tensors, also a tensor with itself. *)
Theorem C56_swap : forall tmp i j m, tmp <> i -> tmp <> j ->
  let m' := std_swap tmp i j m in
  m' i = m j /\ m' j = m i /\ (forall k, k <> tmp -> k <> i -> k <> j -> m' k = m k).
Proof.
  intros tmp i j m Hi Hj. cbv zeta. unfold std_swap.
  assert (forall a b : nat, a <> b -> (a =? b)%nat = false) as NE by (intros a b H; now apply Nat.eqb_neq).
  destruct (Nat.eq_dec i j) as [->|Hij].
  - split; [|split; [|intros k H1 H2 H3]].
    all: rewrite ?move_assign_at, ?move_construct_at, ?Nat.eqb_refl.
    all: rewrite ?(NE j tmp), ?(NE tmp j) by congruence.
    3: rewrite ?(NE k tmp), ?(NE k j) by assumption.
    all: reflexivity.
  - split; [|split; [|intros k H1 H2 H3]].
    all: rewrite ?move_assign_at, ?move_construct_at, ?Nat.eqb_refl.
    all: rewrite ?(NE j tmp), ?(NE tmp j), ?(NE i tmp), ?(NE tmp i), ?(NE i j), ?(NE j i) by congruence.
    3: rewrite ?(NE k tmp), ?(NE k j), ?(NE k i) by assumption.
    all: reflexivity.
Qed.
Print Assumptions C56_swap.

(** What is left of a moved-from tensor: rank 0, yet without the one element a rank-0
    tensor has.  Reading it is undefined; saving it writes a file without data, which
    loads without an error as a tensor of one element. *)
Theorem C56_moved_from_tensors : forall d t v1 e, hollow d t ->
  t_ndim t = 0 /\ t_size t = 0 /\
  t_get t [] = Undef OutOfBounds /\ t_at t [] = Undef OutOfBounds /\ (forall x, t_set t [] x = Undef OutOfBounds) /\
  (forall index, index <> [] -> t_get t index = Throw InvalidArgument) /\
  exists file, save v1 t e = Ok file /\ len file = 128 /\
    forall v2 s g, good s = true -> prior_parses g -> rest s = file -> 246 <= mem v2 ->
    exists t' s' g', load v2 d s g = (Ok t', s', g') /\ t_shape t' = [] /\ t_size t' = 1 /\ t' <> t.
Proof.
  intros d t v1 e [f ->]. split; [reflexivity|]. split; [reflexivity|]. split; [destruct f; reflexivity|].
  split; [destruct f; reflexivity|]. split; [intros x; destruct f; reflexivity|].
  split.
  { intros [|i index] H; [congruence|]. unfold t_get, ravel_signed. cbn [t_shape].
    rewrite len_cons. change (len (@nil Z)) with 0. pose proof (len_nonneg _ index).
    assert ((1 + len index =? 0) = false) as -> by (apply Z.eqb_neq; lia). reflexivity. }
  rewrite save_file. cbn [t_dtype t_values t_fortran t_shape].
  set (W := write_npy_header _ _ _). 
  assert (write_values v1 d e [] = []) as HW by (rewrite write_values_enc; reflexivity).
  rewrite HW, app_nil_r. exists W. split; [reflexivity|].
  assert (save_fits v1 (mk_tensor [] [] f d []) e) as HF.
  { split; [|cbn; lia]. cbn [t_dtype t_values t_fortran t_shape]. destruct d, (means_big (host_big v1) e), f; vm_compute; discriminate. }
  split. { unfold W. destruct d, (means_big (host_big v1) e), f; vm_compute; reflexivity. }
  intros v2 s g G Hg R HM.
  set (one := mk_tensor [] [] f d [zero_elem d]).
  assert (api_tensor one) as H1.
  { apply (by_ctor (mk_env false false (item_size d)) d [] f); [constructor|].
    unfold make_tensor. cbn [get_size fold_left mem]. destruct (1 * item_size d >? item_size d) eqn:E; [lia|].
    destruct f; reflexivity. }
  assert (array_descr d (means_big (host_big v1) e) [] = array_descr d (means_big (host_big v1) e) [zero_elem d]) as HA
    by (destruct d; reflexivity).
  assert (save_fits v1 one e) as HF1.
  { destruct HF as [HF _]. split; [|destruct d; cbn; lia]. cbn [t_dtype t_values t_fortran t_shape one] in *. now rewrite <- HA. }
  assert (rest s = write_npy_header (array_descr (t_dtype one) (means_big (host_big v1) e) (t_values one)) (t_fortran one) (t_shape one) ++ []) as R1.
  { rewrite app_nil_r, R. unfold W. cbn [t_dtype t_values t_fortran t_shape one]. now rewrite HA. }
  destruct (load_written_header v1 v2 one e s g d [] (api_tensor_wf _ H1) Hg G HF1 HM R1) as (g' & _ & HL).
  cbn [t_dtype t_values t_fortran t_shape one] in HL.
  rewrite tensor_load_complete in HL by (destruct d; cbn; lia). cbv zeta in HL.
  eexists _, _, g'. split; [exact HL|]. cbn [t_shape]. split; [reflexivity|].
  match goal with |- t_size ?x = 1 /\ _ => assert (t_size x = 1) as HS by (apply read_values_count; cbn; lia) end.
  split; [exact HS|]. intros HE. rewrite HE in HS. discriminate.
Qed.
Print Assumptions C56_moved_from_tensors.

(** A program that meets the hypotheses: make, fill, move, use the moved-from object. *)
Definition nothing : objects := fun _ => mk_tensor [] [] false INT32 [].
Definition case_program : list action :=
  [AMake 0 [2; 3] true; ACopyMake 1 0; ASet 1 [-1; 0] (Scalar 5); AMove 2 1; AFill 1 [Scalar 1]; ACopy 1 2; AMove 0 0].
Example C56_case :
  agrees INT32 (fun _ => None) nothing /\ all_allowed case_env INT32 case_program (fun _ => None) /\
  exists m, acts case_env INT32 case_program nothing = Ok m /\
    t_get (m 1%nat) [1; 0] = Ok (Scalar 5) /\ t_get (m 2%nat) [1; 0] = Ok (Scalar 5) /\ t_size (m 0%nat) = 0.
Proof.
  split; [intros i; exists false; reflexivity|]. split.
  - assert (forall x, 0 <= x < 2 ^ 32 -> elem_ok INT32 (Scalar x)) as HE
      by (intros x Hx; repeat split; try discriminate; unfold fits; cbn; lia).
    cbn [all_allowed case_program allowed]. split; [repeat constructor; unfold max64; lia|].
    split; [exact I|]. split.
    { split; [apply HE; lia|].
      match goal with |- match ?x with _ => _ end => assert (x = Some (mk_tensor [2; 3] [2; 1] true INT32 (repeat (Scalar 0) 6))) as ->
        by (vm_compute; reflexivity) end.
      split; [repeat constructor; lia|vm_compute; reflexivity]. }
    split; [exact I|]. split; [constructor; [apply HE; lia|constructor]|]. split; [exact I|]. split; exact I.
  - eexists. split; [reflexivity|]. vm_compute. auto.
Qed.
