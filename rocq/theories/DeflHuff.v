(** The Huffman tables of the compressor (src/miniz/miniz.cpp 902-985): for any counts,
    the code sizes form a valid code for exactly the symbols that occur, and the codes
    are its codewords. *)
From Coq Require Import ZArith List Bool Lia Permutation Sorted.
From Verif Require Import Base Arr Tinfl Tdefl BaseFacts DeflateSpec BitFacts HuffCost HuffBuild MinRed.
Import ListNotations.
Open Scope Z_scope.

Ltac bf t := let E := fresh in destruct t eqn:E; [exfalso; rewrite andb_true_iff, !Z.leb_le in E; lia|clear E].
Ltac bt t := let E := fresh in destruct t eqn:E; [clear E|exfalso; rewrite andb_false_iff, !Z.leb_gt in E; lia].

(** ** Radix sort *)
Section Pass.
Context {X : Type} (k : X -> Z).
Definition pass (bs : list nat) (l : list X) : list X :=
  flat_map (fun b => filter (fun x => k x =? Z.of_nat b) l) bs.
Lemma pass_nil bs : pass bs [] = [].
Proof. induction bs; cbn; auto. Qed.
Lemma pass_skip bs x l : (forall b, In b bs -> k x <> Z.of_nat b) -> pass bs (x :: l) = pass bs l.
Proof.
  induction bs as [|b bs IH]; intros H; [reflexivity|].
  change (pass (b :: bs) (x :: l)) with (filter (fun y => k y =? Z.of_nat b) (x :: l) ++ pass bs (x :: l)).
  change (pass (b :: bs) l) with (filter (fun y => k y =? Z.of_nat b) l ++ pass bs l). cbn [filter].
  assert (k x <> Z.of_nat b) by (apply H; now left).
  replace (k x =? Z.of_nat b) with false by lia.
  rewrite IH; [reflexivity|]. intros. apply H. now right.
Qed.
Lemma pass_perm_cons bs x l b : NoDup bs -> In b bs -> k x = Z.of_nat b ->
  Permutation (pass bs (x :: l)) (x :: pass bs l).
Proof.
  induction bs as [|c bs IH]; intros ND Hin E; [destruct Hin|]. inversion ND as [|? ? Hc Hbs]; subst.
  change (pass (c :: bs) (x :: l)) with (filter (fun y => k y =? Z.of_nat c) (x :: l) ++ pass bs (x :: l)).
  change (pass (c :: bs) l) with (filter (fun y => k y =? Z.of_nat c) l ++ pass bs l).
  cbn [filter]. destruct (Z.eqb_spec (k x) (Z.of_nat c)) as [Ec|Ec].
  - cbn [app]. rewrite pass_skip; [reflexivity|]. intros b' Hb' E'. assert (b' = c) by lia. subst. contradiction.
  - destruct Hin as [->|Hin]; [contradiction|]. rewrite IH by assumption.
    symmetry. apply Permutation_middle.
Qed.
Lemma pass_perm bs l : NoDup bs -> (forall x, In x l -> exists b, In b bs /\ k x = Z.of_nat b) ->
  Permutation (pass bs l) l.
Proof.
  intros ND. induction l as [|x l IH]; intros H; [now rewrite pass_nil|].
  destruct (H x (or_introl eq_refl)) as (b & Hb & E). rewrite (pass_perm_cons bs x l b) by assumption.
  apply perm_skip. apply IH. intros. apply H. now right.
Qed.
Definition lex (R : X -> X -> Prop) : X -> X -> Prop :=
  fun x y => k x < k y \/ (k x = k y /\ R x y).
Lemma filter_sorted R b l : StronglySorted R l -> StronglySorted (lex R) (filter (fun x => k x =? b) l).
Proof.
  induction 1 as [|x l Hs IH Hx]; cbn [filter]; [constructor|].
  destruct (Z.eqb_spec (k x) b) as [E|]; [|assumption]. constructor; [assumption|].
  rewrite Forall_forall in *. intros y Hy. apply filter_In in Hy. destruct Hy as [Hy Ey].
  right. split; [lia|auto].
Qed.
Lemma pass_sorted R bs l : StronglySorted lt bs -> StronglySorted R l -> StronglySorted (lex R) (pass bs l).
Proof.
  intros Hb Hl. induction Hb as [|b bs Hb IH HF]; [constructor|].
  change (pass (b :: bs) l) with (filter (fun y => k y =? Z.of_nat b) l ++ pass bs l).
  assert (forall y, In y (pass bs l) -> Z.of_nat b < k y) as Hlt.
  { intros y Hy. unfold pass in Hy. apply in_flat_map in Hy. destruct Hy as (c & Hc & Hy).
    apply filter_In in Hy. rewrite Forall_forall in HF. specialize (HF c Hc). lia. }
  pose proof (filter_sorted R (Z.of_nat b) l Hl) as S1.
  assert (forall y, In y (filter (fun y => k y =? Z.of_nat b) l) -> k y = Z.of_nat b) as He.
  { intros y Hy. apply filter_In in Hy. lia. }
  induction (filter (fun y => k y =? Z.of_nat b) l) as [|x t IHt]; [exact IH|].
  cbn [app]. inversion S1 as [|? ? S1a S1b]; subst. constructor.
  - apply IHt; [assumption|]. intros. apply He. now right.
  - apply Forall_app. split; [assumption|]. apply Forall_forall. intros y Hy. left.
    rewrite (He x) by now left. now apply Hlt.
Qed.
End Pass.

Lemma seq_sorted n : forall a, StronglySorted lt (seq a n).
Proof.
  induction n as [|n IH]; intros a; cbn [seq]; constructor; [apply IH|].
  apply Forall_forall. intros x Hx. apply in_seq in Hx. lia.
Qed.
Lemma true_sorted {X} (l : list X) : StronglySorted (fun _ _ => True) l.
Proof. induction l; constructor; auto. apply Forall_forall. auto. Qed.
Lemma sorted_impl {X} (R S : X -> X -> Prop) l :
  (forall x y, In x l -> In y l -> R x y -> S x y) -> StronglySorted R l -> StronglySorted S l.
Proof.
  intros H HS. induction HS as [|x l HS IH HF]; constructor.
  - apply IH. intros. apply H; auto; now right.
  - rewrite Forall_forall in *. intros y Hy. apply H; [now left|now right|auto].
Qed.
Definition byte_key (shift : Z) (x : sym_freq) : Z := Z.land (Z.shiftr (fst x) shift) 255.
Lemma byte_key_eq shift x : 0 <= shift -> byte_key shift x = fst x / 2 ^ shift mod 256.
Proof.
  intros. unfold byte_key. change 255 with (Z.ones 8). rewrite Z.land_ones by lia.
  now rewrite Z.shiftr_div_pow2.
Qed.
Lemma radix_pass_perm shift l : 0 <= shift -> Permutation (radix_pass shift l) l.
Proof.
  intros. apply (pass_perm (byte_key shift) (seq 0 256)); [apply seq_NoDup|].
  intros x _. exists (Z.to_nat (byte_key shift x)).
  assert (0 <= byte_key shift x < 256) by (rewrite byte_key_eq by lia; apply Z.mod_pos_bound; lia).
  split; [apply in_seq; lia|lia].
Qed.
Lemma radix_pass_sorted shift R l : StronglySorted R l ->
  StronglySorted (lex (byte_key shift) R) (radix_pass shift l).
Proof. intros. apply (pass_sorted (byte_key shift)); [apply seq_sorted|assumption]. Qed.
Lemma radix_perm l : Permutation (radix_sort_syms l) l.
Proof.
  unfold radix_sort_syms. destruct (forallb _ _).
  - now apply radix_pass_perm.
  - rewrite radix_pass_perm by lia. now apply radix_pass_perm.
Qed.
Lemma radix_sorted l : (forall x, In x l -> 0 <= fst x < 65536) ->
  StronglySorted (fun x y => fst x <= fst y) (radix_sort_syms l).
Proof.
  intros H. unfold radix_sort_syms.
  assert (forall x y : sym_freq, 0 <= fst x < 65536 -> 0 <= fst y < 65536 ->
            fst x / 256 mod 256 = fst y / 256 mod 256 ->
            fst x mod 256 <= fst y mod 256 -> fst x <= fst y) as Klo.
  { intros x y Hx Hy E L. rewrite (Z.mod_small (fst x / 256)), (Z.mod_small (fst y / 256)) in E
      by (split; [apply Z.div_pos; lia|apply Z.div_lt_upper_bound; lia]).
    pose proof (Z.div_mod (fst x) 256). pose proof (Z.div_mod (fst y) 256). lia. }
  pose proof (radix_pass_sorted 0 (fun _ _ => True) l (true_sorted l)) as S1.
  assert (forall x, In x (radix_pass 0 l) -> In x l) as I1.
  { intros x Hx. eapply Permutation_in; [apply (radix_pass_perm 0); lia|exact Hx]. }
  destruct (forallb _ l) eqn:E.
  - rewrite forallb_forall in E.
    eapply sorted_impl; [|exact S1]. intros x y Hx Hy HL. cbn beta in *. 
    assert (fst x mod 256 <= fst y mod 256) as L.
    { unfold lex in HL. rewrite !byte_key_eq in HL by lia. change (2 ^ 0) with 1 in HL. rewrite !Z.div_1_r in HL.
      destruct HL as [HL|[HL _]]; lia. }
    apply Klo; try (apply H; apply I1; assumption); [|assumption].
    pose proof (E x (I1 x Hx)) as Ex. pose proof (E y (I1 y Hy)) as Ey.
    change (Z.land (Z.shiftr (fst x) 8) 255) with (byte_key 8 x) in Ex.
    change (Z.land (Z.shiftr (fst y) 8) 255) with (byte_key 8 y) in Ey.
    rewrite byte_key_eq in Ex, Ey by lia. change (2 ^ 8) with 256 in *. lia.
  - pose proof (radix_pass_sorted 8 _ _ S1) as S2.
    eapply sorted_impl; [|exact S2]. intros x y Hx Hy HL. cbn beta in *.
    assert (In x l /\ In y l) as [Ix Iy].
    { split; apply I1; (eapply Permutation_in; [apply (radix_pass_perm 8); lia|assumption]). }
    pose proof (H x Ix) as Rx. pose proof (H y Iy) as Ry.
    unfold lex in HL. rewrite !byte_key_eq in HL by lia. change (2 ^ 0) with 1 in HL. rewrite !Z.div_1_r in HL.
    change (2 ^ 8) with 256 in HL. destruct HL as [HL|[HE HL]].
    + rewrite (Z.mod_small (fst x / 256)), (Z.mod_small (fst y / 256)) in HL by (split; [apply Z.div_pos; lia|apply Z.div_lt_upper_bound; lia]).
      pose proof (Z.div_mod (fst x) 256). pose proof (Z.div_mod (fst y) 256).
      pose proof (Z.mod_pos_bound (fst x) 256). pose proof (Z.mod_pos_bound (fst y) 256). lia.
    + apply Klo; try assumption. lia.
Qed.

(** ** The symbols that occur *)
Lemma used_list_in counts : forall i x, In x (used_list i counts) <->
  i <= snd x < i + len counts /\ fst x = at_index counts (snd x - i) /\ fst x <> 0.
Proof.
  induction counts as [|c t IH]; intros i [a s]; cbn [used_list fst snd].
  - change (len (@nil Z)) with 0. split; [intros []|lia].
  - assert (In (a, s) (used_list (i + 1) t) <->
            i + 1 <= s < i + len (c :: t) /\ a = at_index (c :: t) (s - i) /\ a <> 0) as K.
    { rewrite IH. cbn [fst snd]. rewrite len_cons.
      split; intros (H1 & H2 & H3); (split; [lia|split; [|assumption]]).
      - unfold at_index in *. replace (Z.to_nat (s - i)) with (S (Z.to_nat (s - (i + 1)))) by lia. exact H2.
      - unfold at_index in *. replace (Z.to_nat (s - i)) with (S (Z.to_nat (s - (i + 1)))) in H2 by lia. exact H2. }
    assert (at_index (c :: t) 0 = c) as E0 by reflexivity.
    pose proof (len_nonneg _ t) as LT. pose proof (len_cons _ c t) as LC.
    destruct (Z.eqb_spec c 0) as [->|Hc].
    + rewrite K. split; intros (H1 & H2 & H3); (split; [|split; assumption]); [lia|].
      destruct (Z.eq_dec s i) as [->|]; [|lia]. rewrite Z.sub_diag, E0 in H2. lia.
    + cbn [In]. rewrite K. split.
      * intros [[= <- <-]|H]; [|destruct H as (H1 & H2 & H3); split; [lia|tauto]].
        split; [lia|]. rewrite Z.sub_diag. split; [reflexivity|assumption].
      * intros (H1 & H2 & H3). destruct (Z.eq_dec s i) as [->|]; [|right; split; [lia|tauto]].
        left. rewrite Z.sub_diag, E0 in H2. congruence.
Qed.
Lemma used_list_nodup counts : forall i, NoDup (map snd (used_list i counts)).
Proof.
  induction counts as [|c t IH]; intros i; cbn [used_list map]; [constructor|].
  destruct (c =? 0); [apply IH|]. cbn [map snd]. constructor; [|apply IH].
  intros H. apply in_map_iff in H. destruct H as (x & E & Hx). apply used_list_in in Hx. lia.
Qed.
Lemma used_list_sum counts : forall i, zsum (map fst (used_list i counts)) = zsum counts.
Proof.
  induction counts as [|c t IH]; intros i; cbn [used_list map zsum]; [reflexivity|].
  destruct (Z.eqb_spec c 0) as [->|]; [rewrite IH; lia|]. cbn [map zsum fst]. now rewrite IH.
Qed.
Lemma used_list_length counts : forall i, (length (used_list i counts) <= length counts)%nat.
Proof.
  induction counts as [|c t IH]; intros i; cbn [used_list length]; [lia|].
  specialize (IH (i + 1)). destruct (c =? 0); cbn [length]; lia.
Qed.
Lemma zsum_perm a b : Permutation a b -> zsum a = zsum b.
Proof. induction 1; cbn [zsum]; lia. Qed.

(** ** Arrays of keys *)
Lemma keys_to_arr_get l : forall i A j, 0 <= i -> 0 <= j ->
  arr_get 0 (keys_to_arr i l A) j
  = if (i <=? j) && (j <? i + len l) then at_index l (j - i) else arr_get 0 A j.
Proof.
  induction l as [|x t IH]; intros i A j Hi Hj; cbn [keys_to_arr].
  - rewrite len_nil. destruct ((i <=? j) && (j <? i + 0)) eqn:E; [lia|reflexivity].
  - rewrite IH by lia. rewrite len_cons. pose proof (len_nonneg _ t) as LT.
    destruct ((i + 1 <=? j) && (j <? i + 1 + len t)) eqn:E1.
    + destruct ((i <=? j) && (j <? i + (1 + len t))) eqn:E2; [|lia].
      unfold at_index. replace (Z.to_nat (j - i)) with (S (Z.to_nat (j - (i + 1)))) by lia. reflexivity.
    + destruct (Z.eq_dec j i) as [->|].
      * rewrite arr_get_same, Z.sub_diag. destruct ((i <=? i) && (i <? i + (1 + len t))) eqn:E2; [reflexivity|lia].
      * rewrite arr_get_other by lia. destruct ((i <=? j) && (j <? i + (1 + len t))) eqn:E2; [lia|reflexivity].
Qed.
Lemma arr_to_keys_length k : forall i A, length (arr_to_keys k i A) = k.
Proof. induction k; intros; cbn [arr_to_keys length]; auto. Qed.
Lemma fsum_list l : forall a f, (forall i, 0 <= i < len l -> f (a + i) = at_index l i) ->
  fsum (length l) f a = zsum l.
Proof.
  induction l as [|x t IH]; intros a f H; cbn [length fsum zsum]; [reflexivity|].
  pose proof (len_nonneg _ t) as LT. pose proof (len_cons _ x t) as LC.
  f_equal.
  - specialize (H 0 ltac:(lia)). rewrite Z.add_0_r in H. exact H.
  - apply IH. intros i Hi. specialize (H (i + 1) ltac:(lia)).
    replace (a + 1 + i) with (a + (i + 1)) by lia. rewrite H. unfold at_index.
    replace (Z.to_nat (i + 1)) with (S (Z.to_nat i)) by lia. reflexivity.
Qed.

(** ** Counting *)
Lemma at_bump l i x j : 0 <= i < len l -> 0 <= j ->
  at_index (bump l i x) j = at_index l j + (if i =? j then x else 0).
Proof.
  intros Hi Hj. unfold bump, at_index at 1. rewrite nth_nth_update by (unfold len in *; lia).
  destruct (Z.eqb_spec i j) as [->|].
  - now rewrite Nat.eqb_refl.
  - replace (Nat.eqb (Z.to_nat i) (Z.to_nat j)) with false by (symmetry; apply Nat.eqb_neq; lia).
    fold (at_index l j). lia.
Qed.
Lemma len_bump l i x : len (bump l i x) = len l.
Proof. unfold bump, len. now rewrite nth_update_length. Qed.
Lemma count_size_nonneg l x : 0 <= count_size l x.
Proof. unfold count_size. lia. Qed.
Lemma count_sizes_ok l : forall num, len num = 33 -> Forall (fun x => 0 <= x <= 32) l ->
  exists num', count_sizes l num = Ok num' /\ len num' = 33 /\
    forall i, 0 <= i -> at_index num' i = at_index num i + count_size l i.
Proof.
  induction l as [|x t IH]; intros num Hn HF; cbn [count_sizes].
  - exists num. split; [reflexivity|]. split; [assumption|]. intros. cbn. lia.
  - inversion HF as [|? ? Hx Ht]; subst. unfold MAX_SUPPORTED.
    replace (0 <=? x) with true by lia. replace (x <=? 32) with true by lia. cbn [andb].
    destruct (IH (bump num x 1)) as (num' & R & L & H); [now rewrite len_bump|assumption|].
    exists num'. split; [exact R|]. split; [exact L|]. intros i Hi. rewrite H by lia.
    rewrite at_bump by lia. rewrite count_size_cons.
    destruct (Z.eqb_spec x i), (Z.eqb_spec i x); lia.
Qed.
Lemma at_repeat_0 n i : at_index (repeat 0 n) i = 0.
Proof. unfold at_index. generalize (Z.to_nat i) as k. induction n; intros [|k]; cbn; auto. Qed.

(** ** Length-limiting *)
Lemma weigh_ext k limit a b : (forall i, 1 <= i <= Z.of_nat k -> at_index a i = at_index b i) ->
  weigh k limit a = weigh k limit b.
Proof.
  induction k as [|k IH]; intros H; cbn [weigh]; [reflexivity|].
  rewrite H by lia. f_equal. apply IH. intros. apply H. lia.
Qed.
Lemma weigh_nonneg k limit a : (forall i, 1 <= i <= Z.of_nat k -> 0 <= at_index a i) -> 0 <= weigh k limit a.
Proof.
  induction k as [|k IH]; intros H; cbn [weigh]; [lia|].
  assert (0 <= weigh k limit a) by (apply IH; intros; apply H; lia).
  assert (0 <= Z.shiftl (at_index a (Z.of_nat (S k))) (limit - Z.of_nat (S k))) by (apply Z.shiftl_nonneg; apply H; lia).
  lia.
Qed.
Lemma weigh_bump k limit a i x : 0 <= i < len a ->
  Z.of_nat k <= limit ->
  weigh k limit (bump a i x) = weigh k limit a + (if (1 <=? i) && (i <=? Z.of_nat k) then x * 2 ^ (limit - i) else 0).
Proof.
  intros Hi. induction k as [|k IH]; intros Hk; cbn [weigh].
  - change (Z.of_nat 0) with 0. bf ((1 <=? i) && (i <=? 0)). lia.
  - rewrite at_bump by lia. rewrite IH by lia. rewrite !Z.shiftl_mul_pow2 by lia.
    destruct (Z.eqb_spec i (Z.of_nat (S k))) as [E|E].
    + bf ((1 <=? i) && (i <=? Z.of_nat k)).
      bt ((1 <=? i) && (i <=? Z.of_nat (S k))). rewrite <- E. lia.
    + assert ((i <=? Z.of_nat (S k)) = (i <=? Z.of_nat k)) as ->; [|lia].
      destruct (Z.leb_spec i (Z.of_nat (S k))), (Z.leb_spec i (Z.of_nat k)); lia.
Qed.
(** the number of codes with sizes 1 .. k *)
Fixpoint codes_upto (k : nat) (num : list Z) : Z :=
  match k with O => 0 | S k' => at_index num (Z.of_nat k) + codes_upto k' num end.
Lemma codes_upto_ext k a b : (forall i, 1 <= i <= Z.of_nat k -> at_index a i = at_index b i) ->
  codes_upto k a = codes_upto k b.
Proof.
  induction k as [|k IH]; intros H; cbn [codes_upto]; [reflexivity|].
  rewrite H by lia. f_equal. apply IH. intros. apply H. lia.
Qed.
Lemma codes_upto_nonneg k a : (forall i, 1 <= i <= Z.of_nat k -> 0 <= at_index a i) -> 0 <= codes_upto k a.
Proof.
  induction k as [|k IH]; intros H; cbn [codes_upto]; [lia|].
  assert (0 <= codes_upto k a) by (apply IH; intros; apply H; lia). specialize (H (Z.of_nat (S k))). lia.
Qed.
Lemma codes_upto_bump k a i x : 0 <= i < len a ->
  codes_upto k (bump a i x) = codes_upto k a + (if (1 <=? i) && (i <=? Z.of_nat k) then x else 0).
Proof.
  intros Hi. induction k as [|k IH]; cbn [codes_upto].
  - change (Z.of_nat 0) with 0. bf ((1 <=? i) && (i <=? 0)). lia.
  - rewrite at_bump by lia. rewrite IH.
    destruct (Z.eqb_spec i (Z.of_nat (S k))) as [E|E].
    + bf ((1 <=? i) && (i <=? Z.of_nat k)).
      bt ((1 <=? i) && (i <=? Z.of_nat (S k))). lia.
    + assert ((i <=? Z.of_nat (S k)) = (i <=? Z.of_nat k)) as ->; [|lia].
      destruct (Z.leb_spec i (Z.of_nat (S k))), (Z.leb_spec i (Z.of_nat k)); lia.
Qed.
(** 950 *)
Lemma split_code_ok i : forall num,
  Z.of_nat i + 1 < len num -> (forall j, 1 <= j <= Z.of_nat i -> 0 <= at_index num j) ->
  (exists j, 1 <= j <= Z.of_nat i /\ 0 < at_index num j) ->
  exists j, 1 <= j <= Z.of_nat i /\ 0 < at_index num j /\ (forall l, j < l <= Z.of_nat i -> at_index num l = 0) /\
    split_code i num = bump (bump num j (-1)) (j + 1) 2.
Proof.
  induction i as [|i IH]; intros num HL H0 (j & Hj & Hp); [lia|].
  cbn [split_code]. destruct (Z.eqb_spec (at_index num (Z.of_nat (S i))) 0) as [E|E].
  - destruct IH with (num := num) as (j' & H1 & H2 & H3 & H4); [lia|intros; apply H0; lia| |].
    + exists j. split; [|assumption]. destruct (Z.eq_dec j (Z.of_nat (S i))) as [->|]; lia.
    + exists j'. split; [lia|]. split; [assumption|]. split; [|assumption].
      intros l Hl. destruct (Z.eq_dec l (Z.of_nat (S i))) as [->|]; [assumption|]. apply H3. lia.
  - exists (Z.of_nat (S i)). split; [lia|]. split; [|split; [intros; lia|reflexivity]]. specialize (H0 (Z.of_nat (S i))). lia.
Qed.
Lemma u32_small x : 0 <= x < 4294967296 -> u32 x = x.
Proof. intros. unfold u32. now apply Z.mod_small. Qed.

(** the lengths, in ascending order, of a histogram *)
Fixpoint expand (turns : nat) (i : Z) (num : list Z) : list Z :=
  match turns with O => [] | S t => repeat i (Z.to_nat (at_index num i)) ++ expand t (i + 1) num end.
Lemma expand_split a : forall b i num, expand (a + b) i num = expand a i num ++ expand b (i + Z.of_nat a) num.
Proof.
  induction a as [|a IH]; intros b i num; cbn [expand Nat.add app]; [f_equal; lia|].
  rewrite IH, <- app_assoc. do 3 f_equal. lia.
Qed.
Lemma expand_ext k : forall i a b, (forall j, i <= j < i + Z.of_nat k -> at_index a j = at_index b j) -> expand k i a = expand k i b.
Proof. induction k as [|k IH]; intros i a b H; cbn [expand]; [reflexivity|]. rewrite H by lia. f_equal. apply IH. intros. apply H. lia. Qed.
Lemma expand_zero k : forall i a, (forall j, i <= j < i + Z.of_nat k -> at_index a j = 0) -> expand k i a = [].
Proof. induction k as [|k IH]; intros i a H; cbn [expand]; [reflexivity|]. rewrite H by lia. cbn [Z.to_nat repeat app]. apply IH. intros. apply H. lia. Qed.
Lemma expand_at j limit num : 1 <= j < limit -> expand (Z.to_nat limit) 1 num
  = expand (Z.to_nat (j - 1)) 1 num ++ repeat j (Z.to_nat (at_index num j)) ++ expand (Z.to_nat (limit - 1 - j)) (j + 1) num ++ repeat limit (Z.to_nat (at_index num limit)).
Proof.
  intros H. replace (Z.to_nat limit) with (Z.to_nat (j - 1) + (S (Z.to_nat (limit - 1 - j) + 1)))%nat at 1 by lia.
  rewrite expand_split. f_equal. replace (1 + Z.of_nat (Z.to_nat (j - 1))) with j by lia. cbn [expand]. f_equal.
  rewrite expand_split. f_equal. cbn [expand]. rewrite app_nil_r. replace (j + 1 + Z.of_nat (Z.to_nat (limit - 1 - j))) with limit by lia. reflexivity.
Qed.
(** a turn of 947-952 takes two codes away and gives two back, one longer than the shorter of the two *)
Lemma expand_step num num' j limit : 1 <= j < limit -> 0 < at_index num limit -> 0 < at_index num j ->
  (forall l, j < l < limit -> at_index num l = 0) ->
  (forall i, 0 <= i -> at_index num' i = at_index num i + (if limit =? i then -1 else 0) + (if j =? i then -1 else 0) + (if j + 1 =? i then 2 else 0)) ->
  fstep limit (expand (Z.to_nat limit) 1 num) (expand (Z.to_nat limit) 1 num').
Proof.
  intros Hj Hl Hp H0 HA. rewrite (expand_at j limit num), (expand_at j limit num') by lia.
  rewrite (expand_zero (Z.to_nat (limit - 1 - j)) (j + 1) num) by (intros; apply H0; lia). cbn [app].
  assert (at_index num' j = at_index num j - 1) as Aj.
  { rewrite HA by lia. rewrite Z.eqb_refl. replace (limit =? j) with false by (symmetry; apply Z.eqb_neq; lia).
    replace (j + 1 =? j) with false by (symmetry; apply Z.eqb_neq; lia). lia. }
  rewrite Aj. rewrite (expand_ext (Z.to_nat (j - 1)) 1 num' num).
  2:{ intros i Hi. rewrite HA by lia. replace (limit =? i) with false by (symmetry; apply Z.eqb_neq; lia).
      replace (j =? i) with false by (symmetry; apply Z.eqb_neq; lia). replace (j + 1 =? i) with false by (symmetry; apply Z.eqb_neq; lia). lia. }
  exists (expand (Z.to_nat (j - 1)) 1 num ++ repeat j (Z.to_nat (at_index num j - 1))), j, (Z.to_nat (at_index num limit - 1)).
  split; [|split; [exact Hj|]].
  - replace (Z.to_nat (at_index num j)) with (S (Z.to_nat (at_index num j - 1))) by lia.
    replace (S (Z.to_nat (at_index num limit - 1))) with (Z.to_nat (at_index num limit)) by lia.
    cbn [repeat]. rewrite repeat_cons, <- !app_assoc. reflexivity.
  - rewrite <- app_assoc. do 2 f_equal. destruct (Z.eq_dec (j + 1) limit) as [E|E].
    + replace (Z.to_nat (limit - 1 - j)) with O by lia. cbn [expand app].
      assert (at_index num' limit = at_index num limit + 1) as ->.
      { rewrite HA by lia. rewrite E, !Z.eqb_refl. replace (j =? limit) with false by (symmetry; apply Z.eqb_neq; lia). lia. }
      rewrite E. replace (Z.to_nat (at_index num limit + 1)) with (S (S (Z.to_nat (at_index num limit - 1)))) by lia. reflexivity.
    + replace (Z.to_nat (limit - 1 - j)) with (S (Z.to_nat (limit - 2 - j))) by lia. cbn [expand].
      rewrite (expand_zero (Z.to_nat (limit - 2 - j)) (j + 1 + 1)).
      2:{ intros i Hi. rewrite HA by lia. replace (limit =? i) with false by (symmetry; apply Z.eqb_neq; lia).
          replace (j =? i) with false by (symmetry; apply Z.eqb_neq; lia). replace (j + 1 =? i) with false by (symmetry; apply Z.eqb_neq; lia). rewrite H0 by lia. lia. }
      assert (at_index num' (j + 1) = 2) as ->.
      { rewrite HA by lia. rewrite Z.eqb_refl. replace (limit =? j + 1) with false by (symmetry; apply Z.eqb_neq; lia).
        replace (j =? j + 1) with false by (symmetry; apply Z.eqb_neq; lia). rewrite H0 by lia. lia. }
      assert (at_index num' limit = at_index num limit - 1) as ->.
      { rewrite HA by lia. rewrite Z.eqb_refl. replace (j =? limit) with false by (symmetry; apply Z.eqb_neq; lia).
        replace (j + 1 =? limit) with false by (symmetry; apply Z.eqb_neq; lia). lia. }
      reflexivity.
Qed.

(** a code-length histogram that fills the space exactly *)
Definition exact (num : list Z) (limit n : Z) : Prop :=
  (forall i, 1 <= i <= limit -> 0 <= at_index num i) /\
  weigh (Z.to_nat limit) limit num = 2 ^ limit /\ codes_upto (Z.to_nat limit) num = n.

Lemma enforce_loop_ok limit n turns : 2 <= limit <= 15 -> n <= 2 ^ limit -> forall num total,
  len num = 33 -> (forall i, 1 <= i <= limit -> 0 <= at_index num i) ->
  codes_upto (Z.to_nat limit) num = n ->
  weigh (Z.to_nat (limit - 1)) limit num <= 2 ^ limit ->
  total = weigh (Z.to_nat limit) limit num -> 2 ^ limit <= total <= 2 ^ limit + Z.of_nat turns -> total < 4294967296 ->
  exists num', enforce_loop turns limit num total = Ok num' /\ len num' = 33 /\ exact num' limit n /\
    exists t, fsteps limit t (expand (Z.to_nat limit) 1 num) (expand (Z.to_nat limit) 1 num').
Proof.
  intros Hl Hn. rewrite <- (Z2Nat.id limit) in Hl by lia.
  assert (forall num, weigh (Z.to_nat limit) limit num = at_index num limit + weigh (Z.to_nat (limit - 1)) limit num) as WS.
  { intros num. replace (Z.to_nat limit) with (S (Z.to_nat (limit - 1))) by lia. cbn [weigh].
    replace (Z.of_nat (S (Z.to_nat (limit - 1)))) with limit by lia. rewrite Z.sub_diag, Z.shiftl_0_r. reflexivity. }
  assert (forall num, codes_upto (Z.to_nat limit) num = at_index num limit + codes_upto (Z.to_nat (limit - 1)) num) as CS.
  { intros num. replace (Z.to_nat limit) with (S (Z.to_nat (limit - 1))) by lia. cbn [codes_upto].
    replace (Z.of_nat (S (Z.to_nat (limit - 1)))) with limit by lia. reflexivity. }
  assert (2 ^ limit <= 2 ^ 15) as P15 by (apply Z.pow_le_mono_r; lia). change (2 ^ 15) with 32768 in P15.
  assert (0 < 2 ^ limit) as P0 by (apply pow2_pos; lia).
  induction turns as [|turns IH]; intros num total HL H0 HC HW HT Hr Hu; cbn [enforce_loop]; rewrite Z.shiftl_1_l.
  - assert (total = 2 ^ limit) as E by lia. rewrite E, Z.eqb_refl. exists num. split; [reflexivity|]. split; [assumption|]. split; [|exists O; constructor]. split; [assumption|]. split; [lia|assumption].
  - destruct (Z.eqb_spec total (2 ^ limit)) as [E|E].
    + exists num. split; [reflexivity|]. split; [assumption|]. split; [|exists O; constructor]. split; [assumption|]. split; [lia|assumption].
    + assert (0 < at_index num limit) as Hlim by (rewrite WS in HT; lia).
      set (num1 := bump num limit (-1)).
      assert (len num1 = 33) as HL1 by (unfold num1; now rewrite len_bump).
      assert (forall i, 0 <= i -> at_index num1 i = at_index num i + (if limit =? i then -1 else 0)) as A1.
      { intros. unfold num1. apply at_bump; lia. }
      destruct (split_code_ok (Z.to_nat (limit - 1)) num1) as (j & Hj & Hp & Hz & ES).
      { lia. }
      { intros j Hj. rewrite A1 by lia. replace (limit =? j) with false by (symmetry; apply Z.eqb_neq; lia). specialize (H0 j). lia. }
      { (* some shorter code exists *)
        assert (forall k, (k <= Z.to_nat (limit - 1))%nat ->
                  (exists j, 1 <= j <= Z.of_nat k /\ 0 < at_index num1 j) \/
                  (weigh k limit num = 0 /\ codes_upto k num = 0)) as K.
        { induction k as [|k IHk]; intros Hk; [right; split; reflexivity|].
          destruct (IHk ltac:(lia)) as [(j & Hj & Hp)|[W C]]; [left; exists j; split; [lia|assumption]|].
          cbn [weigh codes_upto]. rewrite W, C.
          destruct (Z.eq_dec (at_index num (Z.of_nat (S k))) 0) as [->|Hne].
          - right. rewrite Z.shiftl_0_l. lia.
          - left. exists (Z.of_nat (S k)). split; [lia|]. rewrite A1 by lia.
            replace (limit =? Z.of_nat (S k)) with false by (symmetry; apply Z.eqb_neq; lia). specialize (H0 (Z.of_nat (S k))). lia. }
        destruct (K (Z.to_nat (limit - 1))) as [(j & Hj & Hp)|[W C]]; [lia|exists j; split; assumption|].
        exfalso. rewrite WS in HT. rewrite CS in HC. lia. }
      rewrite ES.
      assert (forall i, 0 <= i -> at_index (bump (bump num1 j (-1)) (j + 1) 2) i
                = at_index num i + (if limit =? i then -1 else 0) + (if j =? i then -1 else 0)
                  + (if j + 1 =? i then 2 else 0)) as A3.
      { intros i Hi. rewrite at_bump by (rewrite ?len_bump; lia). rewrite at_bump by lia. rewrite A1 by lia. lia. }
      rewrite u32_small by lia.
      assert (2 ^ (limit - j) = 2 * 2 ^ (limit - (j + 1))) as PJ.
      { replace (limit - j) with (limit - (j + 1) + 1) by lia. apply pow2_S. lia. }
      assert (fstep limit (expand (Z.to_nat limit) 1 num) (expand (Z.to_nat limit) 1 (bump (bump num1 j (-1)) (j + 1) 2))) as FST.
      { apply (expand_step num _ j limit); [lia|assumption| | |exact A3].
        - rewrite A1 in Hp by lia. replace (limit =? j) with false in Hp by (symmetry; apply Z.eqb_neq; lia). lia.
        - intros l Hl'. specialize (Hz l ltac:(lia)). rewrite A1 in Hz by lia. replace (limit =? l) with false in Hz by (symmetry; apply Z.eqb_neq; lia). lia. }
      destruct (IH (bump (bump num1 j (-1)) (j + 1) 2) (total - 1)) as (num' & RL & LL & XL & t & FT).
      * rewrite !len_bump. assumption.
      * intros i Hi. rewrite A3 by lia. specialize (H0 i Hi). rewrite A1 in Hp by lia.
        replace (limit =? j) with false in Hp by (symmetry; apply Z.eqb_neq; lia).
        assert (i = j -> at_index num i = at_index num j) by congruence.
        assert (i = limit -> at_index num i = at_index num limit) by congruence.
        destruct (Z.eqb_spec limit i), (Z.eqb_spec j i), (Z.eqb_spec (j + 1) i); lia.
      * rewrite codes_upto_bump by (rewrite ?len_bump; lia). rewrite codes_upto_bump by lia.
        unfold num1. rewrite codes_upto_bump by lia. rewrite Z2Nat.id by lia.
        bt ((1 <=? j + 1) && (j + 1 <=? limit)).
        bt ((1 <=? j) && (j <=? limit)).
        bt ((1 <=? limit) && (limit <=? limit)). lia.
      * rewrite weigh_bump by (rewrite ?len_bump; lia). rewrite weigh_bump by lia.
        unfold num1. rewrite weigh_bump by lia. rewrite Z2Nat.id by lia.
        bt ((1 <=? j) && (j <=? limit - 1)).
        bf ((1 <=? limit) && (limit <=? limit - 1)).
        assert (0 < 2 ^ (limit - (j + 1))) by (apply pow2_pos; lia).
        destruct ((1 <=? j + 1) && (j + 1 <=? limit - 1)); lia.
      * rewrite weigh_bump by (rewrite ?len_bump; lia). rewrite weigh_bump by lia.
        unfold num1. rewrite weigh_bump by lia. rewrite Z2Nat.id by lia.
        bt ((1 <=? j + 1) && (j + 1 <=? limit)).
        bt ((1 <=? j) && (j <=? limit)).
        bt ((1 <=? limit) && (limit <=? limit)).
        rewrite Z.sub_diag. change (2 ^ 0) with 1. lia.
      * lia.
      * lia.
      * exists num'. split; [exact RL|]. split; [exact LL|]. split; [exact XL|]. exists (S t). econstructor; eassumption.
Qed.

Lemma weigh_scale k limit num : Z.of_nat k <= limit <= 32 ->
  weigh k 32 num = 2 ^ (32 - limit) * weigh k limit num.
Proof.
  induction k as [|k IH]; intros Hk; cbn [weigh]; [lia|]. rewrite IH by lia.
  rewrite !Z.shiftl_mul_pow2 by lia.
  rewrite (pow2_split (32 - limit) (32 - Z.of_nat (S k))) by lia.
  replace (32 - Z.of_nat (S k) - (32 - limit)) with (limit - Z.of_nat (S k)) by lia. lia.
Qed.
Lemma weigh_le k1 k2 limit num : (k1 <= k2)%nat -> (forall i, 1 <= i <= Z.of_nat k2 -> 0 <= at_index num i) ->
  weigh k1 limit num <= weigh k2 limit num.
Proof.
  intros Hk H. induction k2 as [|k IH]; [now replace k1 with O by lia|].
  destruct (Nat.eq_dec k1 (S k)) as [->|]; [lia|]. cbn [weigh].
  assert (weigh k1 limit num <= weigh k limit num) by (apply IH; [lia|intros; apply H; lia]).
  assert (0 <= Z.shiftl (at_index num (Z.of_nat (S k))) (limit - Z.of_nat (S k))) by (apply Z.shiftl_nonneg; apply H; lia).
  lia.
Qed.
Lemma weigh_clamp limit num k : 0 <= limit -> limit + Z.of_nat k <= 32 ->
  (forall i, 1 <= i <= 32 -> 0 <= at_index num i) ->
  weigh (Z.to_nat limit + k) 32 num
  <= 2 ^ (32 - limit) * (weigh (Z.to_nat limit) limit num
                         + (codes_upto (Z.to_nat limit + k) num - codes_upto (Z.to_nat limit) num)).
Proof.
  intros Hl Hk H0. induction k as [|k IH].
  - rewrite Nat.add_0_r, Z.sub_diag, Z.add_0_r. rewrite <- weigh_scale by lia. lia.
  - specialize (IH ltac:(lia)). rewrite Nat.add_succ_r. cbn [weigh codes_upto].
    set (i := Z.of_nat (S (Z.to_nat limit + k))). rewrite Z.shiftl_mul_pow2 by lia.
    assert (2 ^ (32 - i) <= 2 ^ (32 - limit)) by (apply Z.pow_le_mono_r; lia).
    specialize (H0 i ltac:(lia)). nia.
Qed.
Lemma firstn_snoc_nth (l : list Z) : forall k, (k < length l)%nat ->
  firstn (S k) l = firstn k l ++ [nth k l 0].
Proof.
  induction l as [|x t IH]; intros k H; cbn [length] in H; [lia|].
  destruct k as [|k]; [reflexivity|]. cbn [nth]. 
  change (firstn (S (S k)) (x :: t)) with (x :: firstn (S k) t). rewrite IH by lia. reflexivity.
Qed.
Lemma codes_upto_zsum k num : Z.of_nat k < len num ->
  codes_upto k num + at_index num 0 = zsum (firstn (S k) num).
Proof.
  induction k as [|k IH]; intros H.
  - cbn [codes_upto]. destruct num as [|x t]; [reflexivity|]. unfold at_index. cbn. lia.
  - rewrite firstn_snoc_nth by (unfold len in H; lia). rewrite zsum_app, <- IH by lia. cbn [codes_upto zsum].
    unfold at_index at 1. rewrite Nat2Z.id. lia.
Qed.
Lemma fold_add l : forall a, fold_left Z.add l a = a + zsum l.
Proof. induction l as [|x t IH]; intros a; cbn [fold_left zsum]; [lia|]. rewrite IH. lia. Qed.
Lemma sum_from_eq num limit : len num = 33 -> 0 <= limit <= 32 ->
  sum_from num (limit + 1) = codes_upto 32 num - codes_upto (Z.to_nat limit) num.
Proof.
  intros HL H. unfold sum_from. rewrite fold_add.
  pose proof (codes_upto_zsum 32 num ltac:(lia)) as C1.
  pose proof (codes_upto_zsum (Z.to_nat limit) num ltac:(lia)) as C2.
  rewrite (firstn_all2 num) in C1 by (unfold len in HL; lia).
  rewrite <- (firstn_skipn (S (Z.to_nat limit)) num) in C1 at 3. rewrite zsum_app in C1.
  replace (Z.to_nat (limit + 1)) with (S (Z.to_nat limit)) by lia. lia.
Qed.

Lemma enforce_max_ok num n limit :
  2 <= limit <= 15 -> 2 <= n <= 512 -> n <= 2 ^ limit -> len num = 33 ->
  (forall i, 1 <= i <= 32 -> 0 <= at_index num i) ->
  weigh 32 32 num = 2 ^ 32 -> codes_upto 32 num = n ->
  exists num', enforce_max_code_size num n limit = Ok num' /\ len num' = 33 /\ exact num' limit n /\
    exists t, fsteps limit t (expand (Z.to_nat limit) 1 (bump num limit (sum_from num (limit + 1)))) (expand (Z.to_nat limit) 1 num').
Proof.
  intros Hl Hn Hn2 HL H0 HW HC. unfold enforce_max_code_size. replace (n <=? 1) with false by lia.
  set (x := sum_from num (limit + 1)). assert (x = n - codes_upto (Z.to_nat limit) num) as Ex.
  { unfold x. rewrite sum_from_eq by lia. lia. }
  assert (0 < 2 ^ limit) as P0 by (apply pow2_pos; lia).
  assert (2 ^ limit <= 2 ^ 15) as P15 by (apply Z.pow_le_mono_r; lia). change (2 ^ 15) with 32768 in P15.
  assert (2 ^ 32 = 2 ^ (32 - limit) * 2 ^ limit) as P32.
  { rewrite <- Z.pow_add_r by lia. f_equal. lia. }
  assert (0 < 2 ^ (32 - limit)) as PM by (apply pow2_pos; lia).
  (* total before the clamp *)
  assert (weigh (Z.to_nat limit) limit num <= 2 ^ limit) as Wle.
  { assert (weigh (Z.to_nat limit) 32 num <= weigh 32 32 num) as W by (apply weigh_le; [lia|intros; apply H0; lia]).
    rewrite (weigh_scale (Z.to_nat limit) limit) in W by lia. nia. }
  assert (2 ^ limit <= weigh (Z.to_nat limit) limit num + x) as Wge.
  { pose proof (weigh_clamp limit num (32 - Z.to_nat limit) ltac:(lia) ltac:(lia) H0) as W.
    replace (Z.to_nat limit + (32 - Z.to_nat limit))%nat with 32%nat in W by lia. nia. }
  assert (0 <= codes_upto (Z.to_nat limit) num) as C0 by (apply codes_upto_nonneg; intros; apply H0; lia).
  assert (0 <= x) as X0.
  { rewrite Ex, <- HC.
    assert (forall k, (Z.to_nat limit + k <= 32)%nat -> codes_upto (Z.to_nat limit) num <= codes_upto (Z.to_nat limit + k) num) as M.
    { induction k as [|k IH]; intros Hk; [rewrite Nat.add_0_r; lia|]. rewrite Nat.add_succ_r. cbn [codes_upto].
      specialize (IH ltac:(lia)). specialize (H0 (Z.of_nat (S (Z.to_nat limit + k)))). lia. }
    specialize (M (32 - Z.to_nat limit)%nat). replace (Z.to_nat limit + (32 - Z.to_nat limit))%nat with 32%nat in M by lia. lia. }
  assert (weigh (Z.to_nat limit) limit (bump num limit x) = weigh (Z.to_nat limit) limit num + x) as WB.
  { rewrite weigh_bump by lia. rewrite Z2Nat.id by lia. bt ((1 <=? limit) && (limit <=? limit)).
    rewrite Z.sub_diag. change (2 ^ 0) with 1. lia. }
  rewrite u32_small by lia.
  apply enforce_loop_ok; try lia.
  - now rewrite len_bump.
  - intros i Hi. rewrite at_bump by lia. specialize (H0 i ltac:(lia)). destruct (limit =? i); lia.
  - rewrite codes_upto_bump by lia. rewrite Z2Nat.id by lia. bt ((1 <=? limit) && (limit <=? limit)). lia.
  - rewrite weigh_bump by lia.
    bf ((1 <=? limit) && (limit <=? Z.of_nat (Z.to_nat (limit - 1)))).
    assert (weigh (Z.to_nat (limit - 1)) limit num <= weigh (Z.to_nat limit) limit num) by
      (apply weigh_le; [lia|intros; apply H0; lia]). lia.
Qed.

(** ** The histogram of the lengths *)
Lemma weigh_counts l : Forall (fun x => 1 <= x <= 32) l -> forall num,
  (forall i, 0 <= i -> at_index num i = count_size l i) ->
  weigh 32 32 num = weight32 l /\ codes_upto 32 num = len l.
Proof.
  intros HF. induction HF as [|x l Hx Hl IH]; intros num H.
  - rewrite (weigh_ext 32 32 num (repeat 0 33)) by (intros; rewrite at_repeat_0; apply H; lia).
    rewrite (codes_upto_ext 32 num (repeat 0 33)) by (intros; rewrite at_repeat_0; apply H; lia).
    split; reflexivity.
  - destruct (count_sizes_ok l (repeat 0 33)) as (num' & _ & L & C).
    { reflexivity. } { eapply Forall_impl; [|exact Hl]. cbn beta. intros. lia. }
    assert (forall i, 0 <= i -> at_index num' i = count_size l i) as C'.
    { intros. rewrite C, at_repeat_0 by lia. lia. }
    destruct (IH num' C') as [W N].
    assert (forall i, 1 <= i <= Z.of_nat 32 -> at_index num i = at_index (bump num' x 1) i) as E.
    { intros i Hi. rewrite H, at_bump, C', count_size_cons by lia.
      destruct (Z.eqb_spec i x), (Z.eqb_spec x i); lia. }
    rewrite (weigh_ext 32 32 num (bump num' x 1) E), (codes_upto_ext 32 num (bump num' x 1) E).
    rewrite weigh_bump, codes_upto_bump by (rewrite ?L; lia). rewrite W, N.
    bt ((1 <=? x) && (x <=? Z.of_nat 32)). rewrite len_cons. unfold weight32. cbn [map zsum]. lia.
Qed.

(** ** Handing out the sizes *)
Definition owed (all rs : list Z) (sizes : list Z) : Prop :=
  (forall s, In s rs -> 0 <= s < len sizes /\ at_index sizes s = 0 /\ In s all) /\ NoDup rs /\
  (forall s, In s all -> In s rs \/ 0 < at_index sizes s) /\
  (forall s, 0 <= s -> 0 < at_index sizes s -> In s all).
Lemma count_update l : forall i x j, (i < length l)%nat ->
  count_size (nth_update l i x) j
  = count_size l j + (if j =? x then 1 else 0) - (if j =? nth i l 0 then 1 else 0).
Proof.
  induction l as [|y t IH]; intros i x j H; cbn [length] in H; [lia|].
  destruct i as [|i]; cbn [nth_update nth]; rewrite !count_size_cons; [lia|].
  rewrite IH by lia. lia.
Qed.
Lemma at_update l i x j : 0 <= i < len l -> 0 <= j ->
  at_index (nth_update l (Z.to_nat i) x) j = if i =? j then x else at_index l j.
Proof.
  intros Hi Hj. unfold at_index. rewrite nth_nth_update by (unfold len in *; lia).
  destruct (Z.eqb_spec i j) as [->|]; [now rewrite Nat.eqb_refl|].
  now replace (Nat.eqb (Z.to_nat i) (Z.to_nat j)) with false by (symmetry; apply Nat.eqb_neq; lia).
Qed.
Lemma Forall_update (P : Z -> Prop) l : forall i x, Forall P l -> P x -> Forall P (nth_update l i x).
Proof.
  induction l as [|y t IH]; intros i x H Hx; [destruct i; constructor|].
  inversion H as [|? ? Hy Ht]; subst. destruct i; cbn [nth_update]; constructor; auto.
Qed.
Lemma give_size_ok all limit k : forall size rs sizes, 1 <= size <= limit -> (k <= length rs)%nat ->
  owed all (map snd rs) sizes -> Forall (fun x => 0 <= x <= limit) sizes ->
  exists sizes', give_size k size rs sizes = Ok (skipn k rs, sizes') /\
    owed all (map snd (skipn k rs)) sizes' /\ length sizes' = length sizes /\
    Forall (fun x => 0 <= x <= limit) sizes' /\
    (forall j, 1 <= j -> count_size sizes' j = count_size sizes j + (if j =? size then Z.of_nat k else 0)).
Proof.
  induction k as [|k IH]; intros size rs sizes Hs Hk HO HF; cbn [give_size skipn].
  - exists sizes. split; [reflexivity|]. split; [assumption|]. split; [reflexivity|]. split; [assumption|].
    intros j Hj. destruct (j =? size); lia.
  - destruct rs as [|[c s] rs]; cbn [length] in Hk; [lia|]. cbn [map snd] in HO.
    destruct HO as (O1 & O2 & O3 & O4). destruct (O1 s (or_introl eq_refl)) as (Hs0 & Es & Ins).
    inversion O2 as [|? ? Nin ND]; subst.
    destruct (IH size rs (nth_update sizes (Z.to_nat s) size)) as (sizes' & R & HO' & L & HF' & HC).
    + assumption.
    + lia.
    + split; [|split; [assumption|split]].
      * intros t Ht. destruct (O1 t (or_intror Ht)) as (Ht0 & Et & Int). unfold len in *. rewrite nth_update_length.
        split; [assumption|]. split; [|assumption]. rewrite at_update by (unfold len; lia).
        destruct (Z.eqb_spec s t) as [->|]; [contradiction|assumption].
      * intros t Ht. destruct (Z.eq_dec s t) as [->|Hne].
        -- right. rewrite at_update, Z.eqb_refl by lia. lia.
        -- destruct (O3 t Ht) as [[?|Hin]|Hp]; [contradiction|left; assumption|right].
           destruct (Z_lt_le_dec t 0).
           ++ assert (at_index sizes t = at_index sizes 0) as E0 by (unfold at_index; now replace (Z.to_nat t) with (Z.to_nat 0) by lia).
              assert (at_index (nth_update sizes (Z.to_nat s) size) t = at_index (nth_update sizes (Z.to_nat s) size) 0) as E1
                by (unfold at_index; now replace (Z.to_nat t) with (Z.to_nat 0) by lia).
              rewrite E1, at_update by lia. destruct (s =? 0); lia.
           ++ rewrite at_update by lia. now replace (s =? t) with false by lia.
      * intros t Ht Hp. rewrite at_update in Hp by lia. destruct (Z.eqb_spec s t) as [->|].
        -- assumption.
        -- now apply O4.
    + apply Forall_update; [assumption|lia].
    + exists sizes'. split; [exact R|]. split; [assumption|]. split; [rewrite L; apply nth_update_length|].
      split; [assumption|]. intros j Hj. rewrite HC by lia. rewrite count_update by (unfold len in Hs0; lia).
      unfold at_index in Es. rewrite Es. replace (j =? 0) with false by lia.
      destruct (j =? size); lia.
Qed.

(** 972-974 *)
Lemma give_sizes_ok all limit num turns : forall i rs sizes,
  1 <= i -> i + Z.of_nat turns = limit + 1 -> (forall j, 1 <= j <= limit -> 0 <= at_index num j) ->
  codes_upto (Z.to_nat limit) num - codes_upto (Z.to_nat (i - 1)) num = len rs ->
  owed all (map snd rs) sizes -> Forall (fun x => 0 <= x <= limit) sizes ->
  exists sizes', give_sizes turns i num rs sizes = Ok sizes' /\ length sizes' = length sizes /\
    owed all [] sizes' /\ Forall (fun x => 0 <= x <= limit) sizes' /\
    (forall j, 1 <= j <= limit -> count_size sizes' j = count_size sizes j + (if i <=? j then at_index num j else 0)).
Proof.
  induction turns as [|turns IH]; intros i rs sizes Hi Ht H0 HC HO HF; cbn [give_sizes].
  - assert (i - 1 = limit) as E by lia. rewrite E, Z.sub_diag in HC.
    destruct rs as [|x rs]; [|rewrite len_cons in HC; pose proof (len_nonneg _ rs); lia].
    exists sizes. split; [reflexivity|]. split; [reflexivity|]. split; [exact HO|]. split; [assumption|].
    intros j Hj. replace (i <=? j) with false by lia. lia.
  - assert (codes_upto (Z.to_nat i) num = at_index num i + codes_upto (Z.to_nat (i - 1)) num) as CS.
    { replace (Z.to_nat i) with (S (Z.to_nat (i - 1))) by lia. cbn [codes_upto].
      now replace (Z.of_nat (S (Z.to_nat (i - 1)))) with i by lia. }
    assert (codes_upto (Z.to_nat i) num <= codes_upto (Z.to_nat limit) num) as CL.
    { assert (forall k, (Z.to_nat i + k <= Z.to_nat limit)%nat -> codes_upto (Z.to_nat i) num <= codes_upto (Z.to_nat i + k) num) as M.
      { induction k as [|k IHk]; intros Hk; [rewrite Nat.add_0_r; lia|]. rewrite Nat.add_succ_r. cbn [codes_upto].
        specialize (IHk ltac:(lia)). specialize (H0 (Z.of_nat (S (Z.to_nat i + k)))). lia. }
      specialize (M (Z.to_nat limit - Z.to_nat i)%nat).
      replace (Z.to_nat i + (Z.to_nat limit - Z.to_nat i))%nat with (Z.to_nat limit) in M by lia. lia. }
    pose proof (H0 i ltac:(lia)) as Hni. unfold len in HC.
    destruct (give_size_ok all limit (Z.to_nat (at_index num i)) i rs sizes) as (s1 & R1 & O1 & L1 & F1 & C1);
      [lia|lia|assumption|assumption|].
    rewrite R1. cbn [obind fst snd].
    destruct (IH (i + 1) (skipn (Z.to_nat (at_index num i)) rs) s1) as (s2 & R2 & L2 & O2 & F2 & C2);
      [lia|lia|assumption| |assumption|assumption|].
    { replace (i + 1 - 1) with i by lia. unfold len. rewrite skipn_length. lia. }
    exists s2. split; [exact R2|]. split; [congruence|]. split; [assumption|]. split; [assumption|].
    intros j Hj. rewrite C2, C1 by lia.
    assert (j = i -> at_index num j = at_index num i) by congruence.
    destruct (Z.eqb_spec j i), (Z.leb_spec (i + 1) j), (Z.leb_spec i j); lia.
Qed.

(** ** The codes *)
Lemma huff_next_nth num L : forall n i j k,
  2 <= i -> (forall l, i - 1 <= l < i - 1 + Z.of_nat n -> at_index num l = count_size L l) ->
  j = space_before L 0 0 (i - 1) -> (k < n)%nat ->
  nth k (huff_next n i num j) 0 = space_before L 0 0 (i + Z.of_nat k).
Proof.
  induction n as [|n IH]; intros i j k Hi H Hj Hk; [lia|]. cbn [huff_next].
  assert (Z.shiftl (j + at_index num (i - 1)) 1 = space_before L 0 0 i) as E.
  { rewrite Z.shiftl_mul_pow2 by lia. rewrite H by lia. subst j.
    replace i with (i - 1 + 1) at 3 by lia. rewrite space_before_next by lia. lia. }
  rewrite E. destruct k as [|k]; cbn [nth].
  - now rewrite Z.add_0_r.
  - rewrite IH; [f_equal; lia|lia|intros; apply H; lia| |lia]. f_equal. lia.
Qed.
Lemma huff_next_length num : forall n i j, length (huff_next n i num j) = n.
Proof. induction n; intros; cbn [huff_next length]; auto. Qed.
Lemma assign_codes_ok L limit : lens_ok L -> forall t pre next,
  L = pre ++ t -> Forall (fun x => x <= limit) t -> len next = limit + 1 -> limit <= 15 ->
  (forall l, 1 <= l <= limit -> at_index next l = space_before L 0 (len pre) l) ->
  len (assign_codes t next) = len t /\
  forall s, 0 <= s < len t -> 0 < at_index L (len pre + s) ->
    at_index (assign_codes t next) s
    = rev_code (Z.to_nat (at_index L (len pre + s))) (code_value L (len pre + s)) 0.
Proof.
  intros HL. induction t as [|x t IH]; intros pre next E HF HN Hlim HS; cbn [assign_codes].
  - split; [reflexivity|]. intros s Hs. change (len (@nil Z)) with 0 in Hs. lia.
  - inversion HF as [|? ? Hx HFt]; subst x0 l.
    assert (at_index L (len pre) = x) as Ex.
    { subst L. unfold at_index, len. rewrite Nat2Z.id, app_nth2, Nat.sub_diag by lia. reflexivity. }
    assert (0 <= x) as Hx0.
    { rewrite <- Ex. apply (code_len_range L (len pre) HL). }
    pose proof (len_nonneg _ pre) as LP. pose proof (len_nonneg _ t) as LT.
    assert (len L = len pre + (1 + len t)) as LL by (subst L; rewrite len_app, len_cons; reflexivity).
    assert (len (pre ++ [x]) = len pre + 1) as LP1 by (rewrite len_app; reflexivity).
    assert (forall l, 1 <= l <= limit ->
              space_before L 0 (len pre + 1) l = space_before L 0 (len pre) l + (if (0 <? x) && (x =? l) then 1 else 0)) as ST.
    { intros l Hl. rewrite space_before_step by lia. rewrite Z.sub_0_r.
      change (code_len L (len pre)) with (at_index L (len pre)). now rewrite Ex. }
    assert (forall a, (forall s, 0 <= s < len t -> 0 < at_index L (len (pre ++ [x]) + s) ->
                at_index a s = rev_code (Z.to_nat (at_index L (len (pre ++ [x]) + s))) (code_value L (len (pre ++ [x]) + s)) 0) ->
              forall c, (0 < x -> c = rev_code (Z.to_nat x) (code_value L (len pre)) 0) ->
              forall s, 0 <= s < len (x :: t) -> 0 < at_index L (len pre + s) ->
              at_index (c :: a) s = rev_code (Z.to_nat (at_index L (len pre + s))) (code_value L (len pre + s)) 0) as K.
    { intros a Ha c Hc s Hs Hp. rewrite len_cons in Hs. destruct (Z.eq_dec s 0) as [->|].
      - rewrite Z.add_0_r in *. rewrite Ex in *. unfold at_index. cbn [Z.to_nat nth]. now apply Hc.
      - replace (len pre + s) with (len (pre ++ [x]) + (s - 1)) in * by lia.
        rewrite <- (Ha (s - 1)) by (assumption || lia). unfold at_index.
        replace (Z.to_nat s) with (S (Z.to_nat (s - 1))) by lia. reflexivity. }
    destruct (Z.eqb_spec x 0) as [E0|E0].
    + destruct (IH (pre ++ [x]) next) as [L1 H1]; try assumption.
      { rewrite <- app_assoc. assumption. }
      { intros l Hl. rewrite LP1, ST, HS by lia. replace (0 <? x) with false by lia. cbn [andb]. lia. }
      split; [rewrite !len_cons; lia|]. apply K; [exact H1|]. lia.
    + destruct (IH (pre ++ [x]) (bump next x 1)) as [L1 H1]; try assumption.
      { rewrite <- app_assoc. assumption. } { now rewrite len_bump. }
      { intros l Hl. rewrite LP1, ST, at_bump, HS by lia. replace (0 <? x) with true by lia. reflexivity. }
      split; [rewrite !len_cons; lia|]. apply K; [exact H1|]. intros _.
      rewrite HS by lia. change (space_before L 0 (len pre) x) with (space_before L 0 (len pre) x).
      assert (space_before L 0 (len pre) x = code_value L (len pre)) as EV.
      { unfold code_value. change (code_len L (len pre)) with (at_index L (len pre)). now rewrite Ex. }
      rewrite EV. apply u16_small.
      assert (0 <= code_value L (len pre)) as V0 by apply space_before_nonneg.
      pose proof (rev_code_range (Z.to_nat x) _ V0) as RR. rewrite Z2Nat.id in RR by lia.
      assert (2 ^ x <= 2 ^ 15) by (apply Z.pow_le_mono_r; lia). change (2 ^ 15) with 32768 in *. lia.
Qed.
(** [codes] are the codewords of the code [sizes] *)
Definition codes_for (sizes codes : list Z) : Prop :=
  forall s, in_code sizes s ->
    0 <= at_index codes s < 2 ^ code_len sizes s /\
    lsb_bits (Z.to_nat (code_len sizes s)) (at_index codes s) = codeword sizes s.
Lemma codes_of_ok num sizes limit : lens_ok sizes -> 1 <= limit <= 15 -> Forall (fun x => x <= limit) sizes ->
  (forall j, 1 <= j <= limit -> at_index num j = count_size sizes j) ->
  codes_for sizes (codes_of num sizes limit) /\ len (codes_of num sizes limit) = len sizes.
Proof.
  intros HL Hlim HF HN. unfold codes_of.
  destruct (assign_codes_ok sizes limit HL sizes [] (0 :: 0 :: huff_next (Z.to_nat (limit - 1)) 2 num 0))
    as [H1 H2]; try assumption; try reflexivity; try lia.
  - rewrite !len_cons. unfold len. rewrite huff_next_length. lia.
  - intros l Hl. change (len (@nil Z)) with 0. unfold at_index. destruct (Z.eq_dec l 1) as [->|].
    + cbn [Z.to_nat nth]. change (Pos.to_nat 1) with 1%nat. cbn [nth]. now rewrite space_before_1.
    + replace (Z.to_nat l) with (S (S (Z.to_nat (l - 2)))) by lia. cbn [nth].
      rewrite (huff_next_nth num sizes); [f_equal; lia|lia|intros; apply HN; lia| |lia].
      now rewrite space_before_1.
  - split; [|exact H1]. intros s [Hs Hp]. change (code_len sizes s) with (at_index sizes s) in *.
    specialize (H2 s Hs Hp). rewrite Z.add_0_l in H2. rewrite H2.
    assert (0 <= code_value sizes s) as V0 by apply space_before_nonneg.
    pose proof (rev_code_range (Z.to_nat (at_index sizes s)) _ V0) as RR. rewrite Z2Nat.id in RR by lia.
    split; [exact RR|]. unfold codeword. change (code_len sizes s) with (at_index sizes s).
    symmetry. now apply rev_code_bits.
Qed.

Lemma kraft_counts limit L : 1 <= limit <= 15 -> Forall (fun x => 0 <= x <= limit) L -> forall num,
  (forall j, 1 <= j <= limit -> at_index num j = count_size L j) ->
  kraft L = 2 ^ (15 - limit) * weigh (Z.to_nat limit) limit num /\
  used_symbols L = codes_upto (Z.to_nat limit) num.
Proof.
  intros Hl HF. induction HF as [|x l Hx Hf IH]; intros num H.
  - assert (forall i, 1 <= i <= Z.of_nat (Z.to_nat limit) -> at_index num i = at_index (repeat 0 33) i) as E.
    { intros. rewrite at_repeat_0. apply H. lia. }
    rewrite (weigh_ext _ limit num _ E), (codes_upto_ext _ num _ E).
    assert (forall k, weigh k limit (repeat 0 33) = 0 /\ codes_upto k (repeat 0 33) = 0) as Z0.
    { induction k as [|k [W C]]; [split; reflexivity|]. cbn [weigh codes_upto].
      rewrite at_repeat_0, Z.shiftl_0_l, W, C. lia. }
    destruct (Z0 (Z.to_nat limit)) as [-> ->]. rewrite Z.mul_0_r. split; reflexivity.
  - destruct (count_sizes_ok l (repeat 0 33)) as (num' & _ & L & C).
    { reflexivity. } { eapply Forall_impl; [|exact Hf]. cbn beta. intros. lia. }
    assert (forall i, 0 <= i -> at_index num' i = count_size l i) as C'.
    { intros. rewrite C, at_repeat_0 by lia. lia. }
    destruct (IH num') as [W N]; [intros; apply C'; lia|].
    assert (forall i, 1 <= i <= Z.of_nat (Z.to_nat limit) -> at_index num i = at_index (bump num' x 1) i) as E.
    { intros i Hi. rewrite H, at_bump, C', count_size_cons by lia.
      destruct (Z.eqb_spec i x), (Z.eqb_spec x i); lia. }
    rewrite (weigh_ext _ limit num _ E), (codes_upto_ext _ num _ E).
    rewrite weigh_bump, codes_upto_bump by (rewrite ?L; lia). rewrite Z2Nat.id by lia.
    unfold kraft, used_symbols in *. cbn [map zsum]. rewrite W, N. unfold space_of.
    destruct (Z.ltb_spec 0 x) as [Hp|Hp].
    + bt ((1 <=? x) && (x <=? limit)). split; [|lia].
      rewrite Z.mul_1_l, Z.mul_add_distr_l, <- Z.pow_add_r by lia.
      replace (15 - limit + (limit - x)) with (15 - x) by lia. lia.
    + bf ((1 <=? x) && (x <=? limit)). lia.
Qed.

Lemma sorted_nth (l : list sym_freq) : StronglySorted (fun x y => fst x <= fst y) l ->
  forall i j, 0 <= i <= j -> j < len l -> at_index (map fst l) i <= at_index (map fst l) j.
Proof.
  induction 1 as [|x l HS IH HF]; intros i j Hi Hj; [unfold len in Hj; cbn in Hj; lia|].
  unfold sym_freq in *. rewrite len_cons in Hj. cbn [map]. unfold at_index.
  destruct (Z.eq_dec j 0) as [->|]; [replace i with 0 by lia; lia|].
  replace (Z.to_nat j) with (S (Z.to_nat (j - 1))) by lia. cbn [nth].
  destruct (Z.eq_dec i 0) as [->|].
  - cbn [Z.to_nat nth]. rewrite Forall_forall in HF.
    assert (In (nth (Z.to_nat (j - 1)) l (0, 0)) l) as Hin by (apply nth_In; unfold len in Hj; lia).
    specialize (HF _ Hin). rewrite (map_nth fst l (0, 0) (Z.to_nat (j - 1)) : nth _ _ 0 = _). exact HF.
  - replace (Z.to_nat i) with (S (Z.to_nat (i - 1))) by lia. cbn [nth].
    apply (IH (i - 1) (j - 1)); lia.
Qed.

Definition table_ok (counts sizes codes : list Z) (limit : Z) : Prop :=
  len sizes = len counts /\ Forall (fun x => 0 <= x <= limit) sizes /\ valid_code sizes /\
  codes_for sizes codes /\
  forall s, 0 <= s -> (0 < at_index counts s <-> 0 < at_index sizes s).

Theorem optimize_table_ok counts limit :
  2 <= limit <= 15 -> len counts <= 512 -> len counts <= 2 ^ limit ->
  Forall (fun c => 0 <= c) counts -> zsum counts <= 65535 ->
  exists sizes codes, optimize_table counts limit = Ok (sizes, codes) /\ table_ok counts sizes codes limit.
Proof.
  intros Hlim Hn512 Hn2 Hpos Hsum. unfold optimize_table.
  set (used := used_list 0 counts). set (syms := radix_sort_syms used). set (n := len used).
  pose proof (radix_perm used) as HP. fold syms in HP.
  assert (length syms = length used) as HLs by (apply Permutation_length; exact HP).
  assert (n <= len counts) as Hnc by (unfold n, used, len; pose proof (used_list_length counts 0); lia).
  assert (forall x, In x used -> 0 <= snd x < len counts /\ fst x = at_index counts (snd x) /\ 1 <= fst x <= 65535) as HU.
  { intros x Hx. unfold used in Hx. apply used_list_in in Hx. destruct Hx as (H1 & H2 & H3). rewrite Z.sub_0_r in H2.
    split; [lia|]. split; [assumption|].
    assert (forall l i, Forall (fun c => 0 <= c) l -> 0 <= at_index l i <= zsum l) as K.
    { clear. intros l i H. revert i. induction H as [|y l Hy Hl IH]; intros i.
      - unfold at_index. destruct (Z.to_nat i); cbn; lia.
      - unfold at_index in *. cbn [zsum]. destruct (Z.to_nat i) as [|k] eqn:Ek; cbn [nth].
        + specialize (IH 0). assert (0 <= zsum l) by lia. lia.
        + specialize (IH (Z.of_nat k)). rewrite Nat2Z.id in IH. lia. }
    pose proof (K counts (snd x) Hpos). lia. }
  assert (forall x, In x syms -> In x used) as HSU by (intros x Hx; eapply Permutation_in; eassumption).
  (* the histogram of the computed lengths *)
  assert (exists A num, minimum_redundancy n (keys_to_arr 0 (map fst syms) arr_empty) = Ok A /\
            (let* num0 := count_sizes (arr_to_keys (length syms) 0 A) (repeat 0 33) in
             enforce_max_code_size num0 n limit) = Ok num /\
            (forall j, 1 <= j <= limit -> 0 <= at_index num j) /\
            codes_upto (Z.to_nat limit) num = n /\
            (weigh (Z.to_nat limit) limit num = 2 ^ limit \/ n <= 1)) as (A & num & RA & RN & N0 & NC & NW).
  { assert (0 <= n) as Hn0 by apply len_nonneg.
    assert (n = 0 \/ n = 1 \/ 2 <= n) as [E|[E|Hn]] by lia.
    - assert (length syms = O) as -> by (unfold n, len in E; lia).
      exists (keys_to_arr 0 (map fst syms) arr_empty), (repeat 0 33). unfold minimum_redundancy.
      rewrite E. split; [reflexivity|]. split; [reflexivity|]. split; [intros; rewrite at_repeat_0; lia|].
      split; [|right; lia].
      assert (forall k, codes_upto k (repeat 0 33) = 0) as Z0.
      { induction k as [|k C]; [reflexivity|]. cbn [codes_upto]. rewrite at_repeat_0, C. lia. }
      apply Z0.
    - assert (length syms = 1%nat) as -> by (unfold n, len in E; lia).
      exists (arr_set (keys_to_arr 0 (map fst syms) arr_empty) 0 1), (bump (repeat 0 33) 1 1).
      unfold minimum_redundancy. rewrite E. split; [reflexivity|].
      cbn [arr_to_keys]. rewrite arr_get_same.
      split; [reflexivity|]. split; [|split; [|right; lia]].
      + intros j Hj. rewrite at_bump, at_repeat_0 by (cbn; lia). destruct (1 =? j); lia.
      + rewrite codes_upto_bump by (cbn; lia). 
        bt ((1 <=? 1) && (1 <=? Z.of_nat (Z.to_nat limit))).
        assert (forall k, codes_upto k (repeat 0 33) = 0) as Z0.
        { induction k as [|k C]; [reflexivity|]. cbn [codes_upto]. rewrite at_repeat_0, C. lia. }
        rewrite Z0. reflexivity.
    - assert (len syms = n) as HLn by (unfold n, len; lia).
      assert (Z.of_nat (length (map fst syms)) = n) as HLm by (rewrite map_length; exact HLn).
      destruct (minimum_redundancy_ok n (keys_to_arr 0 (map fst syms) arr_empty) (at_index (map fst syms)) (zsum counts))
        as (A & RA & HF & HW).
      + lia.
      + intros i Hi. rewrite keys_to_arr_get by lia. assert (len (map fst syms) = n) as -> by (rewrite len_map; exact HLn). rewrite Z.sub_0_r.
        replace (0 <=? i) with true by lia. replace (i <? 0 + n) with true by lia. reflexivity.
      + intros i j Hi Hj. apply sorted_nth; [|lia|lia]. apply radix_sorted. intros x Hx. specialize (HU x Hx). lia.
      + intros i Hi. assert (In (at_index (map fst syms) i) (map fst syms)) as Hin.
        { apply nth_In. lia. }
        apply in_map_iff in Hin. destruct Hin as (x & E & Hx). specialize (HU x (HSU x Hx)). lia.
      + unfold rsum. rewrite Z.sub_0_r.
        replace (Z.to_nat n) with (length (map fst syms)) by lia.
        rewrite fsum_list.
        * rewrite <- (used_list_sum counts 0). apply zsum_perm. apply Permutation_map. exact HP.
        * intros. reflexivity.
      + assumption.
      + cbv zeta in HF, HW. replace (Z.to_nat n) with (length syms) in HF, HW by (unfold len in HLn; lia).
        destruct (count_sizes_ok (arr_to_keys (length syms) 0 A) (repeat 0 33)) as (num0 & R0 & L0 & C0).
        { reflexivity. } { eapply Forall_impl; [|exact HF]. cbn beta. intros. lia. }
        destruct (weigh_counts (arr_to_keys (length syms) 0 A)) with (num := num0) as [W0 U0].
        { eapply Forall_impl; [|exact HF]. cbn beta. intros. lia. }
        { intros. rewrite C0, at_repeat_0 by lia. lia. }
        destruct (enforce_max_ok num0 n limit) as (num & R1 & L1 & (X1 & X2 & X3) & _); try lia.
        { intros i Hi. rewrite C0, at_repeat_0 by lia. pose proof (count_size_nonneg (arr_to_keys (length syms) 0 A) i). lia. }
        { rewrite U0. unfold len. rewrite arr_to_keys_length. exact HLn. }
        exists A, num. split; [exact RA|]. rewrite R0. cbn [obind]. split; [exact R1|].
        split; [exact X1|]. split; [exact X3|]. left. exact X2. }
  rewrite RA. cbn [obind].
  destruct (count_sizes (arr_to_keys (length syms) 0 A) (repeat 0 33)) as [num0| | |] eqn:R0; try discriminate RN.
  cbn [obind] in RN |- *. rewrite RN. cbn [obind].
  assert (forall i, at_index (map (fun _ : Z => 0) counts) i = 0) as Z0.
  { intros i. unfold at_index. clear. revert i. induction counts as [|c t IH]; intros i; cbn [map].
    - destruct (Z.to_nat i); reflexivity.
    - destruct (Z.to_nat i) as [|k] eqn:E; [reflexivity|]. cbn [nth]. specialize (IH (Z.of_nat k)). now rewrite Nat2Z.id in IH. }
  assert (forall j, 1 <= j -> count_size (map (fun _ : Z => 0) counts) j = 0) as CZ.
  { intros j Hj. clear - Hj. induction counts as [|c t IH]; [reflexivity|]. cbn [map]. rewrite count_size_cons, IH.
    replace (j =? 0) with false by lia. reflexivity. }
  destruct (give_sizes_ok (map snd used) limit num (Z.to_nat limit) 1 (rev syms) (map (fun _ => 0) counts))
    as (sizes & RS & LS & (_ & _ & O3 & O4) & FS & CS); try lia.
  - intros; apply N0; lia.
  - rewrite len_rev. change (Z.to_nat (1 - 1)) with O. cbn [codes_upto]. rewrite NC.
    unfold n, len. lia.
  - split; [|split; [|split]].
    + intros s Hs. rewrite len_map. apply in_map_iff in Hs. destruct Hs as (x & <- & Hx).
      apply in_rev in Hx. pose proof (HU x (HSU x Hx)) as (H1 & _). split; [assumption|]. split; [apply Z0|].
      apply in_map_iff. exists x. split; [reflexivity|apply HSU; assumption].
    + apply (Permutation_NoDup (l := map snd used)); [|apply used_list_nodup].
      apply Permutation_map. symmetry. rewrite <- Permutation_rev. exact HP.
    + intros s Hs. left. apply in_map_iff in Hs. destruct Hs as (x & <- & Hx).
      apply in_map_iff. exists x. split; [reflexivity|]. rewrite <- in_rev.
      eapply Permutation_in; [symmetry; exact HP|exact Hx].
    + intros s Hs Hp. rewrite Z0 in Hp. lia.
  - apply Forall_forall. intros x Hx. apply in_map_iff in Hx. destruct Hx as (? & <- & _). lia.
  - rewrite RS. cbn [obind].
    assert (forall j, 1 <= j <= limit -> at_index num j = count_size sizes j) as CN.
    { intros j Hj. rewrite CS, CZ by lia. replace (1 <=? j) with true by lia. lia. }
    assert (lens_ok sizes) as HLO.
    { eapply Forall_impl; [|exact FS]. cbn beta. intros. lia. }
    exists sizes, (codes_of num sizes limit). split; [reflexivity|]. split; [unfold len; rewrite LS, map_length; reflexivity|].
    split; [assumption|]. split; [|split].
    + split; [exact HLO|]. destruct (kraft_counts limit sizes ltac:(lia) FS num CN) as [K1 K2].
      destruct NW as [W|W]; [left|right; lia]. fold (kraft sizes). rewrite K1, W, <- Z.pow_add_r by lia. f_equal. lia.
    + apply codes_of_ok; try assumption; [lia|]. eapply Forall_impl; [|exact FS]. cbn beta. intros. lia.
    + intros s Hs. split.
      * intros Hp. assert (In s (map snd used)) as Hin.
        { apply in_map_iff. exists (at_index counts s, s). split; [reflexivity|].
          unfold used. apply used_list_in. cbn [fst snd]. rewrite Z.sub_0_r.
          split; [|split; [reflexivity|lia]]. split; [lia|].
          destruct (Z_lt_le_dec s (len counts)); [lia|]. unfold at_index in Hp.
          rewrite nth_overflow in Hp by (unfold len in *; lia). lia. }
        destruct (O3 s Hin) as [[]|H]; assumption.
      * intros Hp. specialize (O4 s Hs Hp). apply in_map_iff in O4. destruct O4 as (x & <- & Hx).
        specialize (HU x Hx). destruct HU as (_ & E & H1). rewrite <- E. lia.
Qed.

Theorem static_table_ok sizes : Forall (fun x => 0 <= x <= 15) sizes ->
  exists codes, static_table sizes 15 = Ok (sizes, codes) /\ codes_for sizes codes.
Proof.
  intros HF. unfold static_table.
  destruct (count_sizes_ok sizes (repeat 0 33)) as (num & R & L & C).
  { reflexivity. } { eapply Forall_impl; [|exact HF]. cbn beta. intros. lia. }
  rewrite R. cbn [obind]. exists (codes_of num sizes 15). split; [reflexivity|].
  apply codes_of_ok; [assumption|lia| |].
  - eapply Forall_impl; [|exact HF]. cbn beta. intros. lia.
  - intros j Hj. rewrite C, at_repeat_0 by lia. lia.
Qed.
