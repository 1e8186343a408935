(** Memory safety of tinfl on any input. *)
From Coq Require Import ZArith List Bool Lia.
From Verif Require Import Base BaseFacts Arr DeflateSpec Tinfl BitFacts HuffFacts HuffBuild InflCopy InflBits InflTop Checked.
From Verif Require DeflateDecide CutFacts.
Import ListNotations.
Open Scope Z_scope.
Local Open Scope tinfl_scope.

(** ** Runs that stay inside the buffers *)
(** inside the window, with a bit buffer that has room and nothing unwritten behind *)
Definition inb (s : tst) : Prop :=
  0 <= ti_cur s <= 32768 /\ bytes_ok (ti_in s) /\ 0 <= ti_nb s <= 61 /\ written (ti_dict s) 0 (ti_cur s).
Definition mild (u : ub) : Prop := u = UninitRead \/ u = OutOfFuel.
Definition fine {A} (o : outcome A) : Prop := forall u, o = Undef u -> mild u.
(** [lo]: where the window position was at the start of the call; it only goes up *)
Fixpoint safe {A} (lo : Z) (Q : A -> tst -> Prop) (r : res A) : Prop :=
  match r with
  | RDone a s => (inb s /\ lo <= ti_cur s) /\ Q a s
  | RNeed s k => (inb s /\ lo <= ti_cur s) /\
      forall s', inb s' -> ti_nb s' = ti_nb s -> ti_bb s' = ti_bb s -> safe (ti_cur s') Q (k s')
  | RMore s k => (inb s /\ lo <= ti_cur s) /\
      forall s', inb s' -> ti_nb s' = ti_nb s -> ti_bb s' = ti_bb s -> safe (ti_cur s') Q (k s')
  | RFailed s => inb s /\ lo <= ti_cur s
  | RUndef u => mild u
  end.
Definition any {A} : A -> tst -> Prop := fun _ _ => True.
Definition only {A} (P : A -> Prop) : A -> tst -> Prop := fun a _ => P a.
Lemma mild_fuel : mild OutOfFuel. Proof. now right. Qed.
Lemma fine_ok {A} (a : A) : fine (Ok a). Proof. intros u E. discriminate. Qed.
Lemma fine_fuel {A} : fine (@Undef A OutOfFuel). Proof. intros u [= <-]. apply mild_fuel. Qed.
Lemma safe_low {A} lo lo' (Q : A -> tst -> Prop) r : lo' <= lo -> safe lo Q r -> safe lo' Q r.
Proof. intros H. destruct r; cbn [safe]; intuition lia. Qed.
Lemma safe_mono {A} (P Q : A -> tst -> Prop) lo r : (forall a s, inb s -> P a s -> Q a s) -> safe lo P r -> safe lo Q r.
Proof.
  intros H. revert lo. induction r as [a s|s k IH|s k IH|s|u]; intros lo; cbn [safe]; auto.
  - intros [[I L] S]. auto.
  - intros [I S]. split; auto.
  - intros [I S]. split; auto.
Qed.
Lemma safe_bind {A B} (P : A -> tst -> Prop) (Q : B -> tst -> Prop) lo (m : T A) (g : A -> T B) s :
  safe lo P (m s) -> (forall a s', inb s' -> P a s' -> safe (ti_cur s') Q (g a s')) -> safe lo Q (tbind m g s).
Proof.
  intros H Hg. unfold tbind. revert lo H. generalize (m s) as r. clear s.
  induction r as [a s|s k IH|s k IH|s|u]; intros lo; cbn [safe res_bind]; auto.
  - intros [[I L] HP]. eapply safe_low; [exact L|auto].
  - intros [I S]. split; auto.
  - intros [I S]. split; auto.
Qed.
Lemma here {A} (Q : A -> tst -> Prop) a lo s : inb s -> lo <= ti_cur s -> Q a s -> safe lo Q (RDone a s).
Proof. intros. cbn [safe]. auto. Qed.
Lemma safe_ret {A} (Q : A -> tst -> Prop) a s : inb s -> Q a s -> safe (ti_cur s) Q (tret a s).
Proof. intros. cbn. split; [split; [assumption|lia]|assumption]. Qed.
Lemma safe_fail {A} (Q : A -> tst -> Prop) s : inb s -> safe (ti_cur s) Q (tfail s).
Proof. intros I. split; [exact I|lia]. Qed.
Lemma safe_lift {A} (P : A -> Prop) (o : outcome A) s : inb s -> fine o ->
  (forall a, o = Ok a -> P a) -> safe (ti_cur s) (fun a s' => P a /\ s' = s) (tlift o s).
Proof.
  intros I H HP. destruct o as [a| | |u]; cbn [tlift safe]; auto with zarith.
Qed.
Lemma safe_fuel {A} (Q : A -> tst -> Prop) s : safe (ti_cur s) Q (tlift (Undef OutOfFuel) s).
Proof. apply mild_fuel. Qed.
Lemma inb_in s t : inb s -> bytes_ok t -> inb (set_in s t).
Proof. intros (C & B & N & W) H. unfold inb; cbn [set_in ti_cur ti_in ti_nb ti_dict]; auto. Qed.
Lemma inb_bits s bb nb : inb s -> 0 <= nb <= 61 -> inb (set_bits s bb nb).
Proof. intros (C & B & N & W) H. unfold inb; cbn [set_bits ti_cur ti_in ti_nb ti_dict]; auto. Qed.
Lemma inb_out s d c : inb s -> 0 <= c <= 32768 -> written d 0 c -> inb (set_out s d c).
Proof. intros (C & B & N & W) H HW. unfold inb; cbn [set_out ti_cur ti_in ti_nb ti_dict]; auto. Qed.

Lemma get_byte_safe f s : inb s -> safe (ti_cur s) (fun a s' => is_byte a /\ ti_nb s' = ti_nb s /\ ti_bb s' = ti_bb s) (get_byte f s).
Proof.
  revert s. induction f as [|f IH]; intros s I; cbn [get_byte]; destruct (ti_in s) as [|c t] eqn:Ei.
  - apply mild_fuel.
  - pose proof I as (_ & B & _). rewrite Ei in B. inversion B. apply here; [now apply inb_in|cbn [set_in ti_cur]; lia|now split].
  - split; [split; [exact I|lia]|]. intros s' I' E1 E2. rewrite <- E1, <- E2. auto.
  - pose proof I as (_ & B & _). rewrite Ei in B. inversion B. apply here; [now apply inb_in|cbn [set_in ti_cur]; lia|now split].
Qed.
Lemma add_bits_safe c w s : inb s -> 0 <= w -> ti_nb s + w <= 61 -> safe (ti_cur s) (fun _ s' => ti_nb s' = ti_nb s + w /\ ti_cur s' = ti_cur s) (add_bits c w s).
Proof.
  intros I H H2. pose proof I as (_ & _ & N & _). unfold add_bits. replace ((0 <=? ti_nb s) && (ti_nb s <? 64)) with true by lia.
  apply here; [apply inb_bits; [exact I|lia]|cbn [set_bits ti_cur]; lia|now split].
Qed.
Lemma drop_bits_safe n s : inb s -> 0 <= n <= ti_nb s -> safe (ti_cur s) (fun _ s' => ti_nb s' = ti_nb s - n /\ ti_cur s' = ti_cur s) (drop_bits n s).
Proof.
  intros I H. pose proof I as (_ & _ & N & _). unfold drop_bits. replace ((0 <=? n) && (n <? 64) && (n <=? ti_nb s)) with true by lia.
  apply here; [apply inb_bits; [exact I|lia]|cbn [set_bits ti_cur]; lia|now split].
Qed.
Lemma num_bits_safe s : inb s -> safe (ti_cur s) (fun n s' => n = ti_nb s /\ s' = s) (num_bits s).
Proof. intros I. apply here; [exact I|lia|now split]. Qed.
Lemma bit_buf_safe s : inb s -> safe (ti_cur s) (fun n s' => n = ti_bb s /\ s' = s) (bit_buf s).
Proof. intros I. apply here; [exact I|lia|now split]. Qed.
Lemma need_bits_safe turns f n : n <= 16 -> forall s, inb s -> ti_nb s < n -> safe (ti_cur s) (fun _ s' => n <= ti_nb s') (need_bits turns f n s).
Proof.
  intros Hn. induction turns as [|turns IH]; intros s I Hs; cbn [need_bits]; [apply safe_fuel|].
  eapply safe_bind; [now apply get_byte_safe|]. intros c s1 I1 (_ & N1 & _).
  eapply safe_bind; [apply add_bits_safe; [assumption|lia|lia]|]. intros [] s2 I2 [N2 _].
  eapply safe_bind; [now apply num_bits_safe|]. intros nb s3 I3 [-> ->].
  destruct (ti_nb s2 <? n) eqn:E; [apply IH; [assumption|lia]|]. apply safe_ret; [assumption|lia].
Qed.
Lemma land_mask x n : 0 <= n -> 0 <= Z.land x (Z.shiftl 1 n - 1) < 2 ^ n.
Proof.
  intros H. rewrite Z.shiftl_1_l. replace (2 ^ n - 1) with (Z.ones n) by (rewrite Z.ones_equiv; lia).
  rewrite Z.land_ones by lia. apply Z.mod_pos_bound. lia.
Qed.
Lemma get_bits_safe f n s : 0 <= n <= 16 -> inb s -> safe (ti_cur s) (only (fun x => 0 <= x < 2 ^ n)) (get_bits f n s).
Proof.
  intros Hn I. unfold get_bits.
  eapply safe_bind; [now apply num_bits_safe|]. intros nb s1 I1 [-> ->].
  eapply safe_bind with (P := fun _ s' => n <= ti_nb s').
  { destruct (ti_nb s <? n) eqn:E; [apply need_bits_safe; [lia|assumption|lia]|apply safe_ret; [assumption|lia]]. }
  intros [] s2 I2 N2.
  eapply safe_bind; [now apply bit_buf_safe|]. intros bb s3 I3 [-> ->].
  eapply safe_bind; [apply drop_bits_safe; [assumption|lia]|]. intros [] s4 I4 _.
  apply safe_ret; [assumption|]. apply land_mask. lia.
Qed.
Lemma wait_room_safe f : forall s, inb s -> safe (ti_cur s) (fun _ s' => ti_cur s' < 32768) (wait_room f s).
Proof.
  induction f as [|f IH]; intros s I; cbn [wait_room]; change TINFL_LZ_DICT_SIZE with 32768;
    destruct (ti_cur s >=? 32768) eqn:E; try (apply here; [exact I|lia|lia]); [apply mild_fuel|]. split; [split; [exact I|lia]|auto].
Qed.
Lemma store_safe c s : inb s -> ti_cur s < 32768 -> safe (ti_cur s) (fun _ s' => ti_cur s' = ti_cur s + 1) (store c s).
Proof.
  intros I H. pose proof I as (C & _ & _ & W). rewrite store_room by lia. apply here; [|cbn [set_out ti_cur]; lia|reflexivity].
  apply inb_out; [exact I|lia|]. apply written_push; [lia|lia|exact W].
Qed.
Lemma put_byte_safe f c s : inb s -> safe (ti_cur s) any (put_byte f c s).
Proof.
  intros I. unfold put_byte. eapply safe_bind; [now apply wait_room_safe|]. intros [] s1 I1 H1.
  eapply safe_mono; [|now apply store_safe]. intros; exact Logic.I.
Qed.

(** ** Tables *)
(** [node x d]: the entry x leads to an inner node, d bits down *)
Record nodes (n : Z) (h : huff) (node : Z -> Z -> Prop) : Prop := {
  nd_range : forall x d, node x d -> -575 <= x < 0 /\ 10 <= d <= 14;
  nd_next : forall t d b, node t d -> 0 <= b <= 1 -> let x := arr_get 0 (hf_tree h) (- t - 1 + b) in
    x < n /\ (x < 0 -> node x (d + 1));
  nd_look : forall i, 0 <= i < 1024 -> let x := arr_get 0 (hf_look h) i in
    (0 <= x -> Z.land x 511 < n /\ Z.shiftr x 9 <= 15) /\ (x < 0 -> node x 10)
}.
(** no entry of the table leads outside it, every symbol is below [n], and no path is
    longer than fifteen *)
Definition table_safe (n : Z) (h : huff) : Prop := exists node, nodes n h node.
Lemma land1 x : 0 <= Z.land x 1 <= 1.
Proof. rewrite land1_odd. apply b2z01. Qed.
Lemma look_range bb : 0 <= Z.land bb (TINFL_FAST_LOOKUP_SIZE - 1) < 1024.
Proof.
  change (TINFL_FAST_LOOKUP_SIZE - 1) with (Z.ones 10). rewrite Z.land_ones by lia. apply (Z.mod_pos_bound bb (2 ^ 10)). lia.
Qed.
Lemma tree_at_ok t i : 0 <= i < 576 -> tree_at t i = Ok (arr_get 0 t i).
Proof. intros H. unfold tree_at, TREE_SIZE. now replace ((0 <=? i) && (i <? 576)) with true by lia. Qed.
(** the cautious walk sees enough bits, or the full walk's path is known *)
Lemma walk_some_safe n h node bb nb : nodes n h node -> forall turns temp cl, node temp cl ->
  fine (walk_some turns h bb nb temp cl).
Proof.
  intros HN. induction turns as [|turns IH]; intros temp cl H; cbn [walk_some]; [apply fine_fuel|].
  pose proof (land1 (Z.shiftr bb cl)) as L. destruct (nd_range _ _ _ HN _ _ H) as [R1 R2].
  rewrite tree_at_ok by lia. cbn [obind].
  destruct (nd_next _ _ _ HN _ _ _ H L) as [_ H2].
  destruct ((_ <? 0) && (nb >=? cl + 2)) eqn:E; [|apply fine_ok]. apply IH. apply H2. lia.
Qed.
Lemma walk_some_enough n h node bb nb : nodes n h node -> forall turns temp cl t, node temp cl -> cl + 1 <= nb ->
  walk_some turns h bb nb temp cl = Ok t -> 0 <= t -> forall turns' e, walk turns' h bb temp cl = Ok e -> snd e <= nb.
Proof.
  intros HN. induction turns as [|turns IH]; intros temp cl t H Hb E Ht turns' e Ee; cbn [walk_some] in E; [discriminate|].
  destruct turns' as [|turns']; cbn [walk] in Ee; [discriminate|].
  pose proof (land1 (Z.shiftr bb cl)) as L. destruct (nd_range _ _ _ HN _ _ H) as [R1 R2].
  rewrite tree_at_ok in E, Ee by lia. cbn [obind] in E, Ee.
  destruct (nd_next _ _ _ HN _ _ _ H L) as [_ H2].
  set (x := arr_get 0 (hf_tree h) _) in *. destruct (x <? 0) eqn:Ex; cbn [andb] in E.
  - destruct (nb >=? cl + 2) eqn:En; [|injection E as <-; lia]. eapply IH; [apply H2; lia| |exact E|exact Ht|exact Ee]. lia.
  - injection Ee as <-. exact Hb.
Qed.
Lemma walk_safe n h node bb : nodes n h node -> forall turns temp cl, node temp cl ->
  fine (walk turns h bb temp cl) /\
  forall x, walk turns h bb temp cl = Ok x -> 0 <= fst x < n /\ 0 <= snd x <= 15.
Proof.
  intros HN. induction turns as [|turns IH]; intros temp cl H; cbn [walk]; [split; [apply fine_fuel|discriminate]|].
  pose proof (land1 (Z.shiftr bb cl)) as L. destruct (nd_range _ _ _ HN _ _ H) as [R1 R2].
  rewrite tree_at_ok by lia. cbn [obind].
  destruct (nd_next _ _ _ HN _ _ _ H L) as [H1 H2].
  set (x := arr_get 0 (hf_tree h) _) in *. destruct (x <? 0) eqn:Ex; [apply IH, H2; lia|].
  split; [apply fine_ok|]. intros y [= <-]. unfold fst, snd. lia.
Qed.
Lemma entry_safe n h bb : table_safe n h -> n <= 511 -> fine (huff_entry h bb) /\
  forall x, huff_entry h bb = Ok x -> (0 <= Z.land (fst x) 511 < n /\ (look_at h bb < 0 -> 0 <= fst x < n)) /\ 0 <= snd x <= 15.
Proof.
  intros [node HN] Hn. unfold huff_entry. destruct (nd_look _ _ _ HN _ (look_range bb)) as [L1 L2]. fold (look_at h bb) in L1, L2.
  destruct (look_at h bb >=? 0) eqn:E.
  - split; [apply fine_ok|]. intros x [= <-]. unfold fst, snd. destruct (L1 ltac:(lia)) as [L3 L4]. split; [split; [|lia]|].
    + split; [apply Z.land_nonneg; lia|exact L3].
    + split; [apply Z.shiftr_nonneg; lia|exact L4].
  - destruct (walk_safe n h node bb HN 16 (look_at h bb) TINFL_FAST_LOOKUP_BITS) as [W1 W2]; [apply L2; lia|]. split; [exact W1|].
    intros x Hx. destruct (W2 x Hx) as [W3 W4]. split; [split; [|auto]|exact W4].
    change 511 with (Z.ones 9). rewrite Z.land_ones, Z.mod_small by (change (2 ^ 9) with 512; lia). exact W3.
Qed.
(** enough bits for the next codeword *)
Definition ready (h : huff) (s : tst) : Prop := 15 <= ti_nb s \/ forall e, huff_entry h (ti_bb s) = Ok e -> snd e <= ti_nb s.
Lemma huff_fill_safe n h f : table_safe n h -> forall turns s, inb s -> ti_nb s < 15 -> safe (ti_cur s) (fun _ s' => ready h s') (huff_fill turns f h s).
Proof.
  intros [node HN]. induction turns as [|turns IH]; intros s I Hs; cbn [huff_fill]; [apply safe_fuel|].
  eapply safe_bind; [now apply bit_buf_safe|]. intros bb s1 I1 [-> ->].
  eapply safe_bind; [now apply num_bits_safe|]. intros nb s2 I2 [-> ->].
  eapply safe_bind with (P := fun b s' => s' = s /\ (b = true -> ready h s)).
  { destruct (nd_look _ _ _ HN _ (look_range (ti_bb s))) as [_ L2]. fold (look_at h (ti_bb s)) in L2.
    destruct (look_at h (ti_bb s) >=? 0) eqn:E.
    { apply safe_ret; [assumption|]. split; [reflexivity|]. intros Eb. apply andb_true_iff in Eb as [_ Eb]. right.
      unfold huff_entry. rewrite E. intros e [= <-]. unfold snd. lia. }
    change TINFL_FAST_LOOKUP_BITS with 10. destruct (ti_nb s >? 10) eqn:En; [|apply safe_ret; [assumption|]; split; [reflexivity|discriminate]].
    assert (node (look_at h (ti_bb s)) 10) as Hnode by (apply L2; lia).
    eapply safe_bind; [apply (safe_lift (fun t => walk_some 16 h (ti_bb s) (ti_nb s) (look_at h (ti_bb s)) 10 = Ok t)); [assumption|eapply walk_some_safe; eauto|auto]|].
    intros t s3 I3 [Et ->]. apply safe_ret; [assumption|]. split; [reflexivity|]. intros Eb. right.
    unfold huff_entry. rewrite E. intros e Ee. eapply (walk_some_enough _ _ _ _ _ HN); [exact Hnode| |exact Et| |exact Ee]; lia. }
  intros [|] s3 I3 [-> HR]; [apply safe_ret; auto|].
  eapply safe_bind; [now apply get_byte_safe|]. intros c s4 I4 (_ & N4 & _).
  eapply safe_bind; [apply add_bits_safe; [assumption|lia|lia]|]. intros [] s5 I5 [N5 _].
  eapply safe_bind; [now apply num_bits_safe|]. intros nb' s6 I6 [-> ->].
  destruct (ti_nb s5 <? 15) eqn:E; [apply IH; [assumption|lia]|]. apply safe_ret; [assumption|]. left. lia.
Qed.
Lemma inb_two s a b t : inb s -> ti_in s = a :: b :: t -> inb (set_in s t).
Proof. intros I E. pose proof I as (_ & B & _). rewrite E in B. inversion B as [|? ? ? B2]. inversion B2. now apply inb_in. Qed.
Lemma huff_decode_safe n h f s : table_safe n h -> n <= 511 -> inb s ->
  safe (ti_cur s) (only (fun x => 0 <= x < n)) (huff_decode f h s).
Proof.
  intros HT Hn I. unfold huff_decode.
  eapply safe_bind; [now apply num_bits_safe|]. intros nb s1 I1 [-> ->].
  eapply safe_bind with (P := fun _ s' => ready h s').
  { destruct (ti_nb s <? 15) eqn:E15; [|apply safe_ret; [assumption|left; lia]]. destruct (ti_in s) as [|a [|b t]] eqn:Ei.
    - eapply huff_fill_safe; eauto. lia.
    - eapply huff_fill_safe; eauto. lia.
    - pose proof I as (_ & _ & N & _). eapply safe_bind; [apply (add_bits_safe a 8 (set_in s t)); [eapply inb_two; eauto|lia|cbn [set_in ti_nb]; lia]|].
      intros [] s2 I2 [N2 _]. cbn [set_in ti_nb] in N2.
      eapply safe_mono; [|apply add_bits_safe; [assumption|lia|lia]]. intros [] s3 I3 [N3 _]. left. lia. }
  intros [] s2 I2 HR.
  eapply safe_bind; [now apply bit_buf_safe|]. intros bb s3 I3 [-> ->].
  destruct (entry_safe n h (ti_bb s2) HT Hn) as [E1 E2].
  eapply safe_bind; [apply (safe_lift (fun e => huff_entry h (ti_bb s2) = Ok e) _ _ I3 E1); auto|]. intros e s4 I4 [Ee ->].
  destruct (E2 e Ee) as [[H1 H2] H3].
  eapply safe_bind; [apply drop_bits_safe; [assumption|]|]. { destruct HR as [HR|HR]; [lia|]. specialize (HR e Ee). lia. }
  intros [] s5 I5 _.
  apply safe_ret; [assumption|]. red. destruct (look_at h (ti_bb s2) >=? 0) eqn:E; [exact H1|apply H2; lia].
Qed.
Lemma fast_entry_safe n h s : table_safe n h -> n <= 511 -> inb s -> 15 <= ti_nb s ->
  safe (ti_cur s) (fun x s' => 0 <= Z.land x 511 < n /\ ti_cur s' = ti_cur s /\ ti_nb s - 15 <= ti_nb s') (fast_entry h s).
Proof.
  intros HT Hn I HB. unfold fast_entry.
  eapply safe_bind; [now apply bit_buf_safe|]. intros bb s3 I3 [-> ->].
  destruct (entry_safe n h (ti_bb s) HT Hn) as [E1 E2].
  eapply safe_bind; [apply (safe_lift (fun e => huff_entry h (ti_bb s) = Ok e) _ _ I3 E1); auto|]. intros e s4 I4 [Ee ->].
  destruct (E2 e Ee) as [[H1 _] H3].
  eapply safe_bind; [apply drop_bits_safe; [assumption|lia]|]. intros [] s5 I5 [N5 C5].
  apply safe_ret; [assumption|]. split; [exact H1|]. split; [exact C5|lia].
Qed.
Lemma table_ok_safe L h : lens_ok L -> 0 < len L <= 288 -> table_ok L h -> table_safe (len L) h.
Proof.
  intros HL Hn (labs & V & Hlabs).
  exists (fun x d => exists k p, nth_error labs k = Some p /\ x = -1 - 2 * Z.of_nat k /\ d = Z.of_nat (length p)). split.
  - intros x d (k & p & Ek & -> & ->). assert (k < length labs)%nat by (apply nth_error_Some; congruence).
    destruct (lb_from _ _ _ (iv_labels _ _ _ _ _ _ V) p (nth_error_In _ _ Ek)) as (H10 & y & [Hy _] & r & Hr & E).
    pose proof (code_len_range L y HL) as R. pose proof (cw_length L y) as Cl. rewrite E, app_length in Cl.
    destruct r; [congruence|]. cbn [length] in Cl. unfold len in Hlabs. lia.
  - intros t d b (k & p & Ek & -> & ->) Hb x.
    assert (exists c, b = b2z c) as (c & ->) by (assert (b = 0 \/ b = 1) as [->| ->] by lia; [exists false|exists true]; reflexivity).
    unfold x. clear x. replace (- (-1 - 2 * Z.of_nat k) - 1 + b2z c) with (2 * Z.of_nat k + b2z c) by lia.
    destruct (in_dec (list_eq_dec bool_dec) (p ++ [c]) labs) as [Hin|Hout].
    + apply In_nth_error in Hin as [k' Ek']. rewrite (iv_tree_node _ _ _ _ _ _ V k k' p c Ek Ek').
      split; [lia|]. intros _. exists k', (p ++ [c]). split; [exact Ek'|]. split; [reflexivity|]. rewrite app_length. cbn [length]. lia.
    + destruct (DeflateDecide.search (fun y => in_code L y /\ codeword L y = p ++ [c]) (length L)) as [(y & _ & Hy & E)|Hno].
      { intros y. destruct (list_eq_dec bool_dec (codeword L y) (p ++ [c])) as [E|E]; [|right; now intros []].
        unfold in_code. destruct (Z_le_dec 0 y), (Z_lt_dec y (len L)), (Z_lt_dec 0 (code_len L y)); try (left; tauto); right; intros [[[? ?] ?] _]; contradiction. }
      * rewrite (iv_tree_sym _ _ _ _ _ _ V k p c y Ek); [|split; [exact Hy|apply Hy]|exact E]. destruct Hy as [[] _]. lia.
      * rewrite (iv_tree_none _ _ _ _ _ _ V k p c Ek Hout); [lia|]. intros y [Hy _] E. apply (Hno y); [|split; assumption].
        destruct Hy as [[] _]. unfold len in *. lia.
  - intros i Hi x. set (w := lsb_bits 10 i).
    assert (bval w = i) as Ew by (unfold w; rewrite bval_lsb; apply Z.mod_small; change (2 ^ Z.of_nat 10) with 1024; lia).
    assert (length w = 10%nat) as Lw by apply lsb_length.
    unfold x. rewrite <- Ew. destruct (in_dec (list_eq_dec bool_dec) w labs) as [Hin|Hout].
    + apply In_nth_error in Hin as [k Ek]. rewrite (iv_look_node _ _ _ _ _ _ V k w Lw Ek).
      split; [lia|]. intros _. exists k, w. split; [exact Ek|]. split; [reflexivity|]. rewrite Lw. reflexivity.
    + destruct (DeflateDecide.has_codeword_dec L w) as [(y & r & Hy & E)|Hno].
      * rewrite (iv_look_sym _ _ _ _ _ _ V y w r Lw); [|split; [exact Hy|apply Hy]|exact E].
        destruct Hy as [Hy1 Hy2]. pose proof (code_len_range L y HL) as R. split; [|lia]. intros _. split.
        -- change 511 with (Z.ones 9). rewrite Z.land_ones by lia.
           change (2 ^ 9) with 512. rewrite Z.add_comm, Z_mod_plus_full, Z.mod_small by lia. lia.
        -- rewrite Z.shiftr_div_pow2 by lia. change (2 ^ 9) with 512. rewrite Z.div_add_l by lia. rewrite Z.div_small by lia. lia.
      * rewrite (iv_look_none _ _ _ _ _ _ V w Lw Hout); [cbn; lia|]. intros y r [Hy _]. now apply Hno.
Qed.
Lemma build_table_safe L s : lens_ok L -> 0 < len L <= 288 -> inb s -> safe (ti_cur s) (only (table_safe (len L))) (build_table L s).
Proof.
  intros HL Hn I.
  destruct (negb (65536 =? total_code L) && (used_syms L >? 1)) eqn:E.
  - unfold build_table. rewrite E. now apply safe_fail.
  - assert (valid_code L) as V.
    { rewrite total_code_kraft, used_syms_eq in E by assumption. split; [exact HL|]. apply andb_false_iff in E as [E|E]; [left|right; lia].
      apply negb_false_iff, Z.eqb_eq in E. unfold kraft in E. change (2 ^ 15) with 32768. lia. }
    destruct (build_table_any L HL V ltac:(lia)) as (h & HT & EB). rewrite EB. apply here; [exact I|lia|]. red. apply table_ok_safe; assumption.
Qed.
(** ** Copying *)
Lemma dict_get_safe d i : 0 <= i < 32768 -> fine (dict_get d i).
Proof.
  intros H. unfold dict_get. change TINFL_LZ_DICT_SIZE with 32768. replace ((0 <=? i) && (i <? 32768)) with true by lia.
  destruct (arr_find d i); intros u; [discriminate|]. intros [= <-]. now left.
Qed.
Lemma dict_put_ok d i x : 0 <= i < 32768 -> dict_put d i x = Ok (arr_set d i x).
Proof. intros H. unfold dict_put. change TINFL_LZ_DICT_SIZE with 32768. now replace ((0 <=? i) && (i <? 32768)) with true by lia. Qed.
(** a copy that is fine, and what it leaves behind *)
Definition gives {A} (P : A -> Prop) (o : outcome A) : Prop := fine o /\ forall a, o = Ok a -> P a.
Lemma gives_ok {A} (P : A -> Prop) a : P a -> gives P (Ok a).
Proof. intros H. split; [apply fine_ok|]. now intros b [= <-]. Qed.
Lemma obind_gives {A B} (P : A -> Prop) (Q : B -> Prop) (o : outcome A) (g : A -> outcome B) : gives P o ->
  (forall a, P a -> gives Q (g a)) -> gives Q (obind o g).
Proof.
  intros [F H] Hg. destruct o as [a| | |u]; cbn [obind]; [now apply Hg, H| | |]; (split; [|discriminate]); intros u' E; try discriminate.
  injection E as <-. now apply F.
Qed.
Lemma get_gives d i : 0 <= i < 32768 -> gives (fun _ => True) (dict_get d i).
Proof. intros H. split; [now apply dict_get_safe|auto]. Qed.
Lemma move_bytes_safe : forall n src dst d, 0 <= src -> src + Z.of_nat n <= 32768 -> 0 <= dst -> dst + Z.of_nat n <= 32768 -> written d 0 dst ->
  gives (fun d' => written d' 0 (dst + Z.of_nat n)) (move_bytes n src dst d).
Proof.
  induction n as [|n IH]; intros src dst d H1 H2 H3 H4 W; cbn [move_bytes]; [apply gives_ok; now rewrite Z.add_0_r|].
  eapply obind_gives; [apply get_gives; lia|]. intros x _. rewrite dict_put_ok by lia. cbn [obind].
  replace (dst + Z.of_nat (S n)) with (dst + 1 + Z.of_nat n) by lia. apply IH; try lia. apply written_push; [lia|lia|exact W].
Qed.
Lemma move_word_safe src dst d : 0 <= src -> src + 4 <= 32768 -> 0 <= dst -> dst + 4 <= 32768 -> written d 0 dst ->
  gives (fun d' => written d' 0 (dst + 4)) (move_word src dst d).
Proof.
  intros H1 H2 H3 H4 W. unfold move_word.
  eapply obind_gives; [apply get_gives; lia|]. intros a _.
  eapply obind_gives; [apply get_gives; lia|]. intros b _.
  eapply obind_gives; [apply get_gives; lia|]. intros c _.
  eapply obind_gives; [apply get_gives; lia|]. intros e _.
  rewrite !dict_put_ok by lia. cbn [obind]. rewrite !dict_put_ok by lia. cbn [obind]. rewrite !dict_put_ok by lia. cbn [obind].
  rewrite dict_put_ok by lia. apply gives_ok.
  replace (dst + 4) with (dst + 3 + 1) by lia. apply written_push; [lia|lia|].
  replace (dst + 3) with (dst + 2 + 1) by lia. apply written_push; [lia|lia|].
  replace (dst + 2) with (dst + 1 + 1) by lia. apply written_push; [lia|lia|].
  apply written_push; [lia|lia|exact W].
Qed.
Lemma move_blocks_safe : forall n src dst d, 0 <= src -> src + 8 * Z.of_nat n <= 32768 -> 0 <= dst -> dst + 8 * Z.of_nat n <= 32768 -> written d 0 dst ->
  gives (fun d' => written d' 0 (dst + 8 * Z.of_nat n)) (move_blocks n src dst d).
Proof.
  induction n as [|n IH]; intros src dst d H1 H2 H3 H4 W; cbn [move_blocks]; [apply gives_ok; now rewrite Z.add_0_r|].
  eapply obind_gives; [apply move_word_safe; (exact W || lia)|]. cbv beta. intros d1 W1.
  eapply obind_gives; [apply move_word_safe; (exact W1 || lia)|]. cbv beta. intros d2 W2.
  replace (dst + 8 * Z.of_nat (S n)) with (dst + 8 + 8 * Z.of_nat n) by lia. apply IH; try lia.
  replace (dst + 8) with (dst + 4 + 4) by lia. exact W2.
Qed.
(** the copy moves exactly [counter] bytes when that is at least three *)
Lemma move_threes_safe counter src dst d : 3 <= counter -> 0 <= src -> src + counter <= 32768 -> 0 <= dst -> dst + counter <= 32768 -> written d 0 dst ->
  gives (fun x => snd x = dst + counter /\ written (fst x) 0 (dst + counter)) (move_threes counter src dst d).
Proof.
  intros H H1 H2 H3 H4 W. unfold move_threes. replace (counter <? 3) with false by lia.
  eapply obind_gives; [apply (move_bytes_safe (Z.to_nat counter) src dst d); (exact W || lia)|]. cbv beta. intros d' W'.
  apply gives_ok. rewrite Z2Nat.id in W' by lia. now split.
Qed.
Lemma copy_fast_safe counter dist src dst d : 3 <= counter -> 0 <= src -> src + counter <= 32768 -> 0 <= dst -> dst + counter <= 32768 -> written d 0 dst ->
  gives (fun x => snd x = dst + counter /\ written (fst x) 0 (dst + counter)) (copy_fast counter dist src dst d).
Proof.
  intros H H1 H2 H3 H4 W. unfold copy_fast. destruct ((counter >=? 9) && (counter <=? dist)) eqn:E; [|now apply move_threes_safe].
  assert (Z.land counter 7 = counter mod 8) as Em by (change 7 with (Z.ones 3); rewrite Z.land_ones by lia; reflexivity).
  assert (Z.shiftr counter 3 = counter / 8) as Ed by (rewrite Z.shiftr_div_pow2 by lia; reflexivity).
  rewrite Em, Ed. pose proof (Z.div_mod counter 8 ltac:(lia)) as DM. pose proof (Z.mod_pos_bound counter 8 ltac:(lia)) as MB.
  set (b := counter / 8) in *. set (r := counter mod 8) in *. cbv zeta.
  eapply obind_gives; [apply (move_blocks_safe (Z.to_nat b) src dst d); (exact W || lia)|]. cbv beta. intros d1 W1.
  rewrite Z2Nat.id in W1 by lia.
  destruct (r <? 3) eqn:E3.
  - eapply obind_gives; [apply (move_bytes_safe (Z.to_nat r) (src + 8 * b) (dst + 8 * b) d1); (exact W1 || lia)|]. cbv beta. intros d2 W2.
    rewrite Z2Nat.id in W2 by lia. apply gives_ok. unfold fst, snd. replace (dst + counter) with (dst + 8 * b + r) by lia. now split.
  - replace (dst + counter) with (dst + 8 * b + r) by lia. apply move_threes_safe; (exact W1 || lia).
Qed.
Lemma ring x : 0 <= Z.land x (TINFL_LZ_DICT_SIZE - 1) < 32768.
Proof.
  change (TINFL_LZ_DICT_SIZE - 1) with (Z.ones 15). rewrite Z.land_ones by lia. apply (Z.mod_pos_bound x (2 ^ 15)). lia.
Qed.
Lemma copy_slow_safe : forall n f dist from s, inb s -> safe (ti_cur s) any (copy_slow n f dist from s).
Proof.
  induction n as [|n IH]; intros f dist from s I; cbn [copy_slow]; [now apply safe_ret|].
  eapply safe_bind; [now apply wait_room_safe|]. intros [] s1 I1 H1.
  eapply safe_bind with (P := any); [|intros [] s2 I2 _; auto].
  pose proof (dict_get_safe (ti_dict s1) _ (ring (from - dist))) as G.
  destruct (dict_get _ _) as [x| | |u]; [|split; [exact I1|lia]|split; [exact I1|lia]|now apply G].
  eapply safe_mono; [|now apply store_safe]. intros; exact Logic.I.
Qed.
Lemma do_copy_safe f counter dist s : 3 <= counter -> inb s -> safe (ti_cur s) any (do_copy f counter dist s).
Proof.
  intros Hc I. unfold do_copy. pose proof (ring (ti_cur s - dist)) as R. set (src := Z.land _ _) in *.
  destruct (Z.max (ti_cur s) src + counter >? TINFL_LZ_DICT_SIZE) eqn:E; [now apply copy_slow_safe|].
  change TINFL_LZ_DICT_SIZE with 32768 in E. pose proof I as (IC & _ & _ & W).
  destruct (copy_fast_safe counter dist src (ti_cur s) (ti_dict s) Hc ltac:(lia) ltac:(lia) ltac:(lia) ltac:(lia) W) as [C1 C2].
  eapply safe_bind; [apply (safe_lift _ _ s I C1 C2)|]. intros x s' I' [[Hx1 Hx2] ->]. apply here; [|cbn [set_out ti_cur]; lia|exact Logic.I].
  rewrite Hx1. apply inb_out; [exact I|lia|exact Hx2].
Qed.
(** ** Matches *)
Lemma table_at_safe t i : 0 <= i < len t -> fine (table_at t i) /\ forall x, table_at t i = Ok x -> znth t i = Some x.
Proof.
  intros H. unfold table_at. destruct (znth_in_range _ t i H) as [x E]. rewrite E. split; [apply fine_ok|]. intros y [= <-]. reflexivity.
Qed.
Lemma znth_in {A} (l : list A) i x : znth l i = Some x -> In x l.
Proof. unfold znth. destruct (i <? 0); [discriminate|]. apply nth_error_In. Qed.
Lemma do_match_safe f h1 sym s : table_safe 32 h1 -> 257 <= sym <= 285 -> inb s -> safe (ti_cur s) any (do_match f h1 sym s).
Proof.
  intros HT Hs I. unfold do_match.
  destruct (table_at_safe s_length_extra (sym - 257)) as [X1 X2]; [change (len s_length_extra) with 31; lia|].
  eapply safe_bind; [apply (safe_lift _ _ s I X1 X2)|]. intros lx s1 I1 [Hlx ->].
  destruct (table_at_safe s_length_base (sym - 257)) as [B1 B2]; [change (len s_length_base) with 31; lia|].
  eapply safe_bind; [apply (safe_lift _ _ s I B1 B2)|]. intros lb s2 I2 [Hlb ->].
  assert (0 <= lx <= 16) as Px.
  { assert (Forall (fun x => 0 <= x <= 16) s_length_extra) as F by (repeat constructor; lia). rewrite Forall_forall in F. apply F. eapply znth_in; eauto. }
  assert (3 <= lb) as Pb.
  { assert (Forall (fun x => 3 <= x) (firstn 29 s_length_base)) as F by (cbn; repeat constructor; lia).
    rewrite Forall_forall in F. apply F. unfold znth in Hlb. destruct (sym - 257 <? 0) eqn:E; [discriminate|].
    apply (nth_error_In _ (Z.to_nat (sym - 257))). rewrite <- Hlb.
    rewrite <- (firstn_skipn 29 s_length_base) at 2. rewrite nth_error_app1; [reflexivity|]. change (length (firstn 29 s_length_base)) with 29%nat. lia. }
  eapply safe_bind with (P := only (fun x => 0 <= x)).
  { destruct (lx =? 0); [apply safe_ret; [assumption|red; lia]|]. eapply safe_mono; [|now apply get_bits_safe]. cbv beta. unfold only. intros; lia. }
  intros le s3 I3 Hle.
  eapply safe_bind; [eapply huff_decode_safe; eauto; lia|]. intros dsym s4 I4 Hd. red in Hd, Hle.
  destruct (table_at_safe s_dist_extra dsym) as [X3 X4]; [change (len s_dist_extra) with 32; lia|].
  eapply safe_bind; [apply (safe_lift _ _ s4 I4 X3 X4)|]. intros dx s5 I5 [Hdx ->].
  destruct (table_at_safe s_dist_base dsym) as [B3 B4]; [change (len s_dist_base) with 32; lia|].
  eapply safe_bind; [apply (safe_lift _ _ s4 I4 B3 B4)|]. intros db s6 I6 [Hdb ->].
  assert (0 <= dx <= 16) as Pdx.
  { assert (Forall (fun x => 0 <= x <= 16) s_dist_extra) as F by (repeat constructor; lia). rewrite Forall_forall in F. apply F. eapply znth_in; eauto. }
  eapply safe_bind with (P := any).
  { destruct (dx =? 0); [now apply safe_ret|]. eapply safe_mono; [|now apply get_bits_safe]. intros; exact Logic.I. }
  intros de s7 I7 _. apply do_copy_safe; [lia|assumption].
Qed.
Lemma table_safe_mono n m h : n <= m -> table_safe n h -> table_safe m h.
Proof.
  intros H [node [N1 N2 N3]]. exists node. split; [exact N1| |].
  - intros t d b Hn Hb x. destruct (N2 t d b Hn Hb) as [A B]. fold x in A, B. split; [lia|exact B].
  - intros i Hi x. destruct (N3 i Hi) as [A B]. fold x in A, B. split; [intros K; specialize (A K); lia|exact B].
Qed.
(** ** Symbols *)
Lemma land_256 c n : 0 <= Z.land c 511 < n -> n <= 511 -> negb (Z.land c 256 =? 0) = true -> 256 <= Z.land c 511.
Proof.
  intros H Hn E. apply negb_true_iff, Z.eqb_neq in E.
  assert (Z.land c 256 = Z.land (Z.land c 511) 256) as EE by (rewrite <- Z.land_assoc; reflexivity).
  rewrite EE in E. destruct (Z_lt_le_dec (Z.land c 511) 256) as [L|L]; [|exact L]. exfalso. apply E.
  set (x := Z.land c 511) in *. clearbody x. apply Z.bits_inj'. intros k Hk. rewrite Z.land_spec, Z.bits_0.
  destruct (Z.eq_dec k 8) as [->|N]; [|change 256 with (2 ^ 8); rewrite Z.pow2_bits_false by lia; apply andb_false_r].
  destruct (Z.eq_dec x 0) as [->|]; [rewrite Z.bits_0; reflexivity|].
  rewrite Z.bits_above_log2; [reflexivity|lia|]. apply Z.log2_lt_pow2; lia.
Qed.
Lemma codes_checked_safe f h0 h1 : table_safe 288 h0 -> table_safe 32 h1 ->
  forall turns s, inb s -> safe (ti_cur s) any (codes_checked turns f h0 h1 s).
Proof.
  intros T0 T1. induction turns as [|turns IH]; intros s I; cbn [codes_checked]; [apply safe_fuel|].
  assert (forall sym s', 256 <= Z.land sym 511 < 288 -> inb s' ->
    safe (ti_cur s') any ((if Z.land sym 511 =? 256 then tret tt
        else do_match_checked f h1 (Z.land sym 511) ;;; codes_checked turns f h0 h1) s')) as After.
  { intros sym s' H I'. destruct (Z.land sym 511 =? 256) eqn:E; [now apply safe_ret|].
    eapply safe_bind with (P := any); [|intros [] s2 I2 _; auto]. unfold do_match_checked.
    destruct (Z.land sym 511 >? 285) eqn:E2; [now apply safe_fail|]. apply do_match_safe; [exact T1|lia|assumption]. }
  destruct (_ || _) eqn:E.
  - eapply safe_bind; [eapply (huff_decode_safe 288); eauto; lia|]. intros c s1 I1 Hc. red in Hc.
    destruct (c >=? 256) eqn:Ec.
    + apply After; [|assumption]. change 511 with (Z.ones 9). rewrite Z.land_ones, Z.mod_small by (change (2 ^ 9) with 512; lia). lia.
    + eapply safe_bind; [now apply put_byte_safe|]. intros [] s2 I2 _. auto.
  - apply orb_false_iff in E as [E1 E2]. change TINFL_LZ_DICT_SIZE with 32768 in E2.
    unfold tbind at 1. cbn [num_bits res_bind].
    eapply safe_bind with (P := fun _ s' => ti_cur s' = ti_cur s /\ 30 <= ti_nb s').
    { destruct (ti_nb s <? 30) eqn:E3; [|apply here; [exact I|lia|split; [reflexivity|lia]]]. unfold take_word. pose proof I as (_ & B & N & _).
      destruct (ti_in s) as [|a [|b [|c [|d t]]]] eqn:Ei; rewrite ?len_cons, ?len_nil in E1; try lia.
      repeat match goal with H : bytes_ok (_ :: _) |- _ => inversion H; clear H; subst | H : Forall _ (_ :: _) |- _ => inversion H; clear H; subst end.
      eapply safe_mono; [|apply (add_bits_safe _ 32 (set_in s t)); [apply inb_in; assumption|lia|cbn [set_in ti_nb]; lia]].
      cbn [set_in ti_nb ti_cur]. intros [] s1 _ [N1 C1]. split; [exact C1|lia]. }
    intros [] s1 I1 [C1 N1].
    eapply safe_bind; [apply (fast_entry_safe 288 h0 s1 T0); [lia|assumption|lia]|]. intros c s2 I2 (Hc & C2 & N2).
    destruct (negb (Z.land c 256 =? 0)) eqn:Eb; [apply After; [|assumption]; split; [eapply land_256; eauto; lia|lia]|].
    eapply safe_bind; [apply (fast_entry_safe 288 h0 s2 T0); [lia|assumption|lia]|]. intros c2 s3 I3 (Hc2 & C3 & N3).
    eapply safe_bind; [apply store_safe; [assumption|lia]|]. intros [] s4 I4 C4.
    destruct (negb (Z.land c2 256 =? 0)) eqn:Eb2; [apply After; [|assumption]; split; [eapply land_256; eauto; lia|lia]|].
    eapply safe_bind; [apply store_safe; [assumption|lia]|]. intros [] s5 I5 C5. auto.
Qed.
(** ** Blocks *)
Lemma raw_byte_safe f s : inb s -> safe (ti_cur s) (only is_byte) (raw_byte f s).
Proof.
  intros I. unfold raw_byte. eapply safe_bind; [now apply num_bits_safe|]. intros nb s1 I1 [-> ->].
  destruct (_ =? 0); [|apply (get_bits_safe f 8); [lia|assumption]].
  eapply safe_mono; [|now apply get_byte_safe]. now intros a s2 _ [H _].
Qed.
Lemma stored_bits_safe f : forall turns counter s, 0 <= counter -> inb s -> safe (ti_cur s) (only (fun x => 0 <= x)) (stored_bits turns f counter s).
Proof.
  induction turns as [|turns IH]; intros counter s Hc I; cbn [stored_bits].
  - eapply safe_bind; [now apply num_bits_safe|]. intros nb s1 I1 _. destruct (_ || _); [now apply safe_ret|apply safe_fuel].
  - eapply safe_bind; [now apply num_bits_safe|]. intros nb s1 I1 _. destruct (_ || _) eqn:E; [now apply safe_ret|].
    eapply safe_bind; [apply get_bits_safe; [lia|assumption]|]. intros c s2 I2 _.
    eapply safe_bind; [now apply put_byte_safe|]. intros [] s3 I3 _. apply orb_false_iff in E as [E _]. apply IH; [lia|assumption].
Qed.
Lemma wait_input_safe f : forall s, inb s -> safe (ti_cur s) any (wait_input f s).
Proof.
  intros s I. revert s I. induction f as [|f IH]; intros s I; cbn [wait_input]; destruct (ti_in s); try (apply here; [exact I|lia|exact Logic.I]).
  - apply mild_fuel.
  - split; [split; [exact I|lia]|auto].
Qed.
Lemma write_all_written : forall l d i, 0 <= i -> i + len l <= 32768 -> written d 0 i -> written (write_all d i l) 0 (i + len l).
Proof.
  induction l as [|x l IH]; intros d i H1 H2 W; cbn [write_all].
  - rewrite len_nil, Z.add_0_r. exact W.
  - rewrite len_cons in *. pose proof (len_nonneg _ l). replace (i + (1 + len l)) with (i + 1 + len l) by lia.
    apply IH; [lia|lia|]. apply written_push; [lia|lia|exact W].
Qed.
Lemma stored_bytes_safe f : forall turns counter s, 0 <= counter -> inb s -> safe (ti_cur s) any (stored_bytes turns f counter s).
Proof.
  induction turns as [|turns IH]; intros counter s Hc I; cbn [stored_bytes]; destruct (counter =? 0) eqn:E0;
    try (now apply safe_ret); [apply safe_fuel|].
  eapply safe_bind; [now apply wait_room_safe|]. intros [] s1 I1 H1.
  eapply safe_bind; [now apply wait_input_safe|]. intros [] s2 (I2 & B2 & N2 & W2) _.
  change TINFL_LZ_DICT_SIZE with 32768. pose proof (len_nonneg _ (ti_in s2)).
  set (n := Z.min _ counter). assert (0 <= n /\ n <= len (ti_in s2) /\ ti_cur s2 + n <= 32768 /\ n <= counter) as (Hn1 & Hn2 & Hn3 & Hn4) by (unfold n; lia).
  clearbody n. destruct (_ || _) eqn:EG; [exfalso; rewrite !orb_true_iff in EG; lia|].
  eapply safe_low; [|apply IH; [lia|]]; [cbn [ti_cur]; lia|]. unfold inb. cbn [ti_cur ti_in ti_nb ti_dict]. split; [lia|]. split; [now apply CutFacts.Forall_zdrop|]. split; [lia|].
  assert (len (ztake n (ti_in s2)) = n) as El by (rewrite len_ztake; lia).
  pose proof (write_all_written (ztake n (ti_in s2)) (ti_dict s2) (ti_cur s2)) as HW. rewrite El in HW. apply HW; [lia|lia|exact W2].
Qed.
Lemma lor_nonneg_byte a b : is_byte a -> is_byte b -> 0 <= Z.lor a (Z.shiftl b 8).
Proof. intros [] []. apply Z.lor_nonneg. split; [assumption|]. apply Z.shiftl_nonneg. assumption. Qed.
Lemma stored_block_safe turns f s : inb s -> safe (ti_cur s) any (stored_block turns f s).
Proof.
  intros I. unfold stored_block.
  eapply safe_bind; [now apply num_bits_safe|]. intros nb s1 I1 _.
  eapply safe_bind; [apply get_bits_safe; [|assumption]; change 7 with (Z.ones 3); rewrite Z.land_ones by lia; pose proof (Z.mod_pos_bound nb (2 ^ 3) ltac:(lia)); change (2 ^ 3) with 8 in *; lia|]. intros pad s2 I2 _.
  eapply safe_bind; [now apply raw_byte_safe|]. intros a s3 I3 Ha.
  eapply safe_bind; [now apply raw_byte_safe|]. intros b s4 I4 Hb.
  eapply safe_bind; [now apply raw_byte_safe|]. intros c s5 I5 _.
  eapply safe_bind; [now apply raw_byte_safe|]. intros d s6 I6 _.
  destruct (negb _); [now apply safe_fail|].
  eapply safe_bind; [apply stored_bits_safe; [now apply lor_nonneg_byte|assumption]|]. intros counter s7 I7 Hc.
  now apply stored_bytes_safe.
Qed.
Lemma fixed_block_safe turns f s : inb s -> safe (ti_cur s) any (fixed_block_checked turns f s).
Proof.
  intros I. unfold fixed_block_checked.
  eapply safe_bind; [apply (build_table_safe (repeat 5 32)); [|vm_compute; split; congruence|assumption]|].
  { unfold lens_ok. apply Forall_forall. intros x Hx. apply repeat_spec in Hx. lia. }
  intros h1 s1 I1 T1.
  eapply safe_bind; [apply (build_table_safe static_sizes); [|vm_compute; split; congruence|assumption]|].
  { unfold lens_ok, static_sizes. apply Forall_forall. intros x Hx.
    repeat (apply in_app_or in Hx as [Hx|Hx]); apply repeat_spec in Hx; lia. }
  intros h0 s2 I2 T0. apply codes_checked_safe; assumption.
Qed.
Lemma nth_update_Forall (P : Z -> Prop) l i x : Forall P l -> P x -> Forall P (nth_update l i x).
Proof.
  revert i. induction l as [|y l IH]; intros i H Hx; cbn [nth_update]; [constructor|]. inversion H; subst.
  destruct i; constructor; auto.
Qed.
Lemma read_code_sizes_safe f : forall order sizes s, lens_ok sizes -> inb s ->
  safe (ti_cur s) (only (fun l => lens_ok l /\ len l = len sizes)) (read_code_sizes f order sizes s).
Proof.
  induction order as [|i order IH]; intros sizes s HL I; cbn [read_code_sizes]; [apply safe_ret; [assumption|now split]|].
  eapply safe_bind; [apply get_bits_safe; [lia|assumption]|]. intros x s1 I1 Hx. red in Hx. change (2 ^ 3) with 8 in Hx.
  eapply safe_mono; [|apply IH; [|assumption]].
  - intros l s2 _ [H1 H2]. split; [exact H1|]. rewrite H2. unfold len. now rewrite nth_update_length.
  - unfold lens_ok. apply nth_update_Forall; [exact HL|lia].
Qed.
Lemma read_lengths_safe f h total : table_safe 19 h -> total <= 320 -> forall turns acc s, lens_ok acc -> inb s ->
  safe (ti_cur s) (only lens_ok) (read_lengths turns f h total acc s).
Proof.
  intros HT Ht. induction turns as [|turns IH]; intros acc s HA I; cbn [read_lengths]; destruct (len acc <? total) eqn:E;
    try (now apply safe_ret); [apply safe_fuel|].
  eapply safe_bind; [apply (huff_decode_safe 19); [assumption|lia|assumption]|]. intros dist s1 I1 Hd. red in Hd.
  destruct (dist <? 16) eqn:E16.
  { apply IH; [|assumption]. apply Forall_app. split; [exact HA|]. constructor; [lia|constructor]. }
  destruct ((dist =? 16) && (len acc =? 0)); [now apply safe_fail|].
  assert (dist = 16 \/ dist = 17 \/ dist = 18) as HD by lia.
  set (nx := nth (Z.to_nat (dist - 16)) [2; 3; 7] 0). set (nb := nth (Z.to_nat (dist - 16)) [3; 3; 11] 0).
  assert (0 <= nx <= 16 /\ nb + 2 ^ nx <= 139 /\ 0 <= nb) as HX by (unfold nx, nb; destruct HD as [->|[->| ->]]; vm_compute; intuition congruence).
  eapply safe_bind; [apply get_bits_safe; [lia|assumption]|]. intros x s2 I2 Hx. red in Hx.
  cbv zeta. change LEN_CODES_SIZE with 457. replace (len acc + (x + nb) >? 457) with false by lia.
  apply IH; [|assumption]. apply Forall_app. split; [exact HA|]. unfold zrepeat. apply Forall_forall. intros y Hy. apply repeat_spec in Hy. subst y.
  destruct (dist =? 16); [|lia]. destruct acc as [|y acc]; [cbn; lia|]. unfold lens_ok in HA. rewrite Forall_forall in HA. apply HA.
  destruct (exists_last (l := y :: acc)) as (l' & z & ->); [discriminate|]. rewrite last_last. apply in_or_app. right. now left.
Qed.
Lemma dynamic_block_safe turns f s : inb s -> safe (ti_cur s) any (dynamic_block_checked turns f s).
Proof.
  intros I. unfold dynamic_block_checked.
  eapply safe_bind; [apply get_bits_safe; [lia|assumption]|]. intros a s1 I1 Ha. red in Ha. change (2 ^ 5) with 32 in Ha.
  eapply safe_bind; [apply get_bits_safe; [lia|assumption]|]. intros b s2 I2 Hb. red in Hb. change (2 ^ 5) with 32 in Hb.
  eapply safe_bind; [apply get_bits_safe; [lia|assumption]|]. intros c s3 I3 _.
  eapply safe_bind; [apply read_code_sizes_safe; [|assumption]|].
  { unfold lens_ok. apply Forall_forall. intros x Hx. apply repeat_spec in Hx. lia. }
  intros cl s4 I4 [HC HL]. change (len (repeat 0 19)) with 19 in HL.
  eapply safe_bind; [apply build_table_safe; [assumption|lia|assumption]|]. intros h2 s5 I5 T2. red in T2. rewrite HL in T2.
  eapply safe_bind; [apply read_lengths_safe; [assumption|lia|constructor|assumption]|]. intros l s6 I6 Hl. red in Hl.
  destruct (negb _) eqn:E; [now apply safe_fail|]. apply negb_false_iff, Z.eqb_eq in E.
  assert (len (zdrop (a + 257) l) = b + 1) as L1 by (rewrite len_zdrop; lia).
  assert (len (ztake (a + 257) l) = a + 257) as L0 by (rewrite len_ztake; lia).
  eapply safe_bind; [apply build_table_safe; [now apply CutFacts.Forall_zdrop|lia|assumption]|]. intros h1 s7 I7 T1.
  eapply safe_bind; [apply build_table_safe; [now apply CutFacts.Forall_ztake|lia|assumption]|]. intros h0 s8 I8 T0. red in T0, T1.
  apply codes_checked_safe; [|  |assumption]; eapply table_safe_mono; eauto; lia.
Qed.
Lemma blocks_checked_safe turns f : forall n s, inb s -> safe (ti_cur s) any (blocks_checked n turns f s).
Proof.
  induction n as [|n IH]; intros s I; cbn [blocks_checked]; [apply safe_fuel|].
  eapply safe_bind; [apply get_bits_safe; [lia|assumption]|]. intros x s1 I1 _.
  eapply safe_bind with (P := any).
  { destruct (_ =? 0); [now apply stored_block_safe|]. destruct (_ =? 3); [now apply safe_fail|].
    destruct (_ =? 1); [now apply fixed_block_safe|now apply dynamic_block_safe]. }
  intros [] s2 I2 _. destruct (_ =? 0); [auto|now apply safe_ret].
Qed.
(** ** Calls *)
(** what is kept between calls: the bytes still to be handed out were written *)
Definition go_safe (st : inflate_state) : Prop :=
  0 <= is_ofs st < 32768 /\ 0 <= is_avail st /\ is_ofs st + is_avail st <= 32768 /\ 0 <= is_nb st <= 61 /\
  written (is_dict st) 0 (is_ofs st + is_avail st) /\
  forall s, inb s -> ti_nb s = is_nb st -> ti_bb s = is_bb st -> safe (ti_cur s) any (is_go st s).
Lemma written_less d a b c : c <= b -> written d a b -> written d a c.
Proof. intros H W i Hi. apply W. lia. Qed.
Lemma decompress_safe st input : go_safe st -> is_avail st = 0 -> bytes_ok input -> fine (decompress st input) /\
  forall status input1 n st1, decompress st input = Ok (status, input1, n, st1) ->
    go_safe (mk_inflate (is_go st1) (is_bb st1) (is_nb st1) (is_dict st1) (is_ofs st1) n (is_last st1)) /\ bytes_ok input1.
Proof.
  intros (HO & _ & _ & HN & HW & HG) HA HB. rewrite HA, Z.add_0_r in HW. unfold decompress.
  specialize (HG (mk_tst input (is_bb st) (is_nb st) (is_dict st) (is_ofs st))). cbn [ti_cur ti_nb ti_bb] in HG.
  assert (inb (mk_tst input (is_bb st) (is_nb st) (is_dict st) (is_ofs st))) as I.
  { unfold inb. cbn [ti_cur ti_in ti_nb ti_dict]. split; [lia|]. auto. }
  specialize (HG I eq_refl eq_refl).
  assert (forall s go status, inb s -> is_ofs st <= ti_cur s ->
    (forall s', inb s' -> ti_nb s' = ti_nb s -> ti_bb s' = ti_bb s -> safe (ti_cur s') any (go s')) ->
    go_safe (mk_inflate go (ti_bb s) (ti_nb s) (ti_dict s) (is_ofs st) (ti_cur s - is_ofs st) status) /\ bytes_ok (ti_in s)) as K.
  { intros s go status (IC & IB & IN & IW) Hle Hk. split; [|exact IB]. unfold go_safe. cbn [is_ofs is_avail is_nb is_dict is_go is_bb].
    replace (is_ofs st + (ti_cur s - is_ofs st)) with (ti_cur s) by lia. split; [lia|]. split; [lia|]. split; [lia|]. auto. }
  destruct (is_go st _) as [[] s|s k|s k|s|u]; cbn [safe] in HG.
  - split; [intros u; discriminate|]. intros ? ? ? ? [= <- <- <- <-]. cbn [is_go is_bb is_nb is_dict is_ofs is_last].
    destruct HG as [[I' L'] _]. apply K; auto. intros s' I2 _ _. apply here; [exact I2|lia|exact Logic.I].
  - split; [intros u; discriminate|]. intros ? ? ? ? [= <- <- <- <-]. cbn [is_go is_bb is_nb is_dict is_ofs is_last].
    destruct HG as [[I' L'] Hk]. apply K; auto.
  - split; [intros u; discriminate|]. intros ? ? ? ? [= <- <- <- <-]. cbn [is_go is_bb is_nb is_dict is_ofs is_last].
    destruct HG as [[I' L'] Hk]. apply K; auto.
  - split; [intros u; discriminate|]. intros ? ? ? ? [= <- <- <- <-]. cbn [is_go is_bb is_nb is_dict is_ofs is_last].
    destruct HG as [I' L']. apply K; auto. intros s' I2 _ _. split; [exact I2|lia].
  - split; [intros u' [= <-]; exact HG|discriminate].
Qed.
Lemma dict_bytes_len n : forall d i, len (dict_bytes n d i) = Z.of_nat n.
Proof. induction n as [|n IH]; intros d i; cbn [dict_bytes]; [reflexivity|]. rewrite len_cons, IH. lia. Qed.
Lemma hand_out_safe st avail : go_safe st -> 0 <= avail ->
  exists o st', hand_out st avail = Ok (o, st') /\ go_safe st' /\ len o <= avail /\ (len o = avail \/ is_avail st' = 0).
Proof.
  intros (HO & HA & HS & HN & HW & HG) Hav. set (n := Z.min (is_avail st) avail). assert (0 <= n /\ n <= is_avail st /\ n <= avail) as Hn by (unfold n; lia).
  rewrite (hand_out_ok st avail (is_ofs st + is_avail st)); [| |fold n; lia|fold n; lia].
  2:{ intros i Hi. apply HW. lia. }
  unfold handed_out. fold n. eexists _, _. split; [reflexivity|]. cbn [is_avail]. rewrite dict_bytes_len, Z2Nat.id by lia.
  split; [|split; [lia|]; unfold n; lia].
  assert (Z.land (is_ofs st + n) (TINFL_LZ_DICT_SIZE - 1) = (is_ofs st + n) mod 32768) as EL
    by (change (TINFL_LZ_DICT_SIZE - 1) with (Z.ones 15); rewrite Z.land_ones by lia; reflexivity).
  unfold go_safe. cbn [is_ofs is_avail is_nb is_dict is_go is_bb]. rewrite EL.
  pose proof (Z.mod_pos_bound (is_ofs st + n) 32768 ltac:(lia)) as MB.
  assert ((is_ofs st + n) mod 32768 + (is_avail st - n) <= is_ofs st + is_avail st /\ (is_ofs st + n) mod 32768 + (is_avail st - n) <= 32768) as [H1 H2].
  { destruct (Z_lt_le_dec (is_ofs st + n) 32768); [rewrite Z.mod_small by lia; lia|].
    replace (is_ofs st + n) with 32768 in * by lia. change (32768 mod 32768) with 0 in *. lia. }
  split; [lia|]. split; [lia|]. split; [lia|]. split; [lia|]. split; [eapply written_less; [exact H1|exact HW]|exact HG].
Qed.
Lemma inflate_loop_safe had : forall turns st input avail w, go_safe st -> is_avail st = 0 -> bytes_ok input -> 0 <= avail ->
  fine (inflate_loop turns st had input avail w) /\
  forall ret input1 o st1, inflate_loop turns st had input avail w = Ok (ret, input1, o, st1) -> go_safe st1 /\ bytes_ok input1.
Proof.
  induction turns as [|turns IH]; intros st input avail w HS HA HB Hav; cbn [inflate_loop]; [split; [apply fine_fuel|discriminate]|].
  destruct (decompress_safe st input HS HA HB) as [D1 D2].
  destruct (decompress st input) as [[[[status input1] n] st1]|e| |u]; cbn [obind];
    [|split; [intros u; discriminate|discriminate]|split; [intros u; discriminate|discriminate]|split; [intros u' [= <-]; now apply D1|discriminate]].
  destruct (D2 _ _ _ _ eq_refl) as [G B].
  destruct (hand_out_safe _ avail G Hav) as (o & st2 & -> & G2 & Ho & Hz). cbn [obind].
  destruct (tstatus_eqb status T_FAILED) eqn:EF; [split; [apply fine_ok|]; intros ? ? ? ? [= <- <- <- <-]; now split|].
  destruct (_ && _); [split; [apply fine_ok|]; intros ? ? ? ? [= <- <- <- <-]; now split|].
  destruct (_ || _) eqn:EO; [split; [apply fine_ok|]; intros ? ? ? ? [= <- <- <- <-]; now split|].
  apply orb_false_iff in EO as [EO E4]. apply negb_false_iff, Z.eqb_eq in E4. apply IH; [assumption|exact E4|assumption|lia].
Qed.
Lemma mz_inflate_safe turns st input avail : go_safe st -> bytes_ok input -> 0 <= avail ->
  fine (mz_inflate turns st input avail) /\
  forall ret input1 o st1, mz_inflate turns st input avail = Ok (ret, input1, o, st1) -> go_safe st1 /\ bytes_ok input1.
Proof.
  intros HS HB Hav. unfold mz_inflate. destruct (tstatus_eqb _ _); [split; [apply fine_ok|]; intros ? ? ? ? [= <- <- <- <-]; now split|].
  destruct (negb (is_avail st =? 0)) eqn:EA; [|apply inflate_loop_safe; auto; apply negb_false_iff in EA; lia].
  destruct (hand_out_safe st avail HS Hav) as (o & st2 & -> & G2 & _). cbn [obind].
  split; [apply fine_ok|]. intros ? ? ? ? [= <- <- <- <-]. now split.
Qed.
Lemma inflate_chunk_safe loops : forall turns st input output, go_safe st -> bytes_ok input ->
  fine (inflate_chunk turns loops st input output) /\
  forall ret o st1, inflate_chunk turns loops st input output = Ok (ret, o, st1) -> go_safe st1.
Proof.
  induction turns as [|turns IH]; intros st input output HS HB; cbn [inflate_chunk]; [split; [apply fine_fuel|discriminate]|].
  destruct (mz_inflate_safe loops st input CHUNK HS HB ltac:(unfold CHUNK; lia)) as [D1 D2].
  destruct (mz_inflate _ _ _ _) as [[[[ret input1] o] st1]|e| |u]; cbn [obind];
    [|split; [intros u; discriminate|discriminate]|split; [intros u; discriminate|discriminate]|split; [intros u' [= <-]; now apply D1|discriminate]].
  destruct (ret =? MZ_DATA_ERROR) eqn:ER; [split; [intros u; discriminate|discriminate]|].
  destruct (D2 _ _ _ _ eq_refl) as [G B].
  destruct (_ =? 0); [now apply IH|]. split; [apply fine_ok|]. intros ? ? ? [= <- <- <-]. exact G.
Qed.
Lemma inflate_chunks_safe loops : forall turns st ret input output, go_safe st -> bytes_ok input ->
  fine (inflate_chunks turns loops st ret input output).
Proof.
  induction turns as [|turns IH]; intros st ret input output HS HB; cbn [inflate_chunks]; (destruct input as [|x t] eqn:Ei;
    [destruct (_ =? _); intros u; discriminate|]); [apply fine_fuel|]. rewrite <- Ei in *.
  destruct (inflate_chunk_safe loops loops st (ztake CHUNK input) output HS ltac:(now apply CutFacts.Forall_ztake)) as [D1 D2].
  destruct (inflate_chunk _ _ _ _ _) as [[[ret1 output1] st1]|e| |u]; cbn [obind]; try (intros u'; discriminate).
  - destruct (_ =? _); [apply fine_ok|]. apply IH; [eapply D2; reflexivity|now apply CutFacts.Forall_zdrop].
  - intros u' [= <-]. now apply D1.
Qed.
Lemma start_safe fuel : go_safe (mk_inflate (blocks_checked fuel fuel fuel) 0 0 arr_empty 0 0 T_NEEDS_MORE_INPUT).
Proof.
  unfold go_safe. cbn [is_ofs is_avail is_nb is_dict is_go is_bb]. split; [lia|]. split; [lia|]. split; [lia|]. split; [lia|].
  split; [now apply written_none|]. intros s I _ _. now apply blocks_checked_safe.
Qed.
Lemma checked_safe fuel z u : bytes_ok z -> npy_inflate_checked fuel z = Undef u -> u = UninitRead \/ u = OutOfFuel.
Proof.
  intros HB. revert u. change (fine (npy_inflate_checked fuel z)). unfold npy_inflate_checked. apply inflate_chunks_safe; [apply start_safe|exact HB].
Qed.

(** ** The check changes nothing else *)
Inductive agree {A} : res A -> res A -> Prop :=
| ag_fail r s : agree r (RFailed s)
| ag_done a s : agree (RDone a s) (RDone a s)
| ag_need s k k' : (forall s', agree (k s') (k' s')) -> agree (RNeed s k) (RNeed s k')
| ag_more s k k' : (forall s', agree (k s') (k' s')) -> agree (RMore s k) (RMore s k')
| ag_undef u : agree (RUndef u) (RUndef u).
Lemma agree_refl {A} (r : res A) : agree r r.
Proof. induction r; constructor; auto. Qed.
Lemma agree_bind {A B} (m m' : T A) (g g' : A -> T B) s : agree (m s) (m' s) ->
  (forall a s', agree (g a s') (g' a s')) -> agree (tbind m g s) (tbind m' g' s).
Proof.
  intros H Hg. unfold tbind. induction H; cbn [res_bind]; try constructor; auto.
Qed.
Lemma agree_same {A B} (m : T A) (g g' : A -> T B) s :
  (forall a s', agree (g a s') (g' a s')) -> agree (tbind m g s) (tbind m g' s).
Proof. apply agree_bind. apply agree_refl. Qed.
Lemma codes_agree f h0 h1 : forall turns s, agree (codes turns f h0 h1 s) (codes_checked turns f h0 h1 s).
Proof.
  induction turns as [|turns IH]; intros s; cbn [codes codes_checked]; [constructor|].
  assert (forall sym s', agree
    ((if Z.land sym 511 =? 256 then tret tt else do_match f h1 (Z.land sym 511) ;;; codes turns f h0 h1) s')
    ((if Z.land sym 511 =? 256 then tret tt else do_match_checked f h1 (Z.land sym 511) ;;; codes_checked turns f h0 h1) s')) as After.
  { intros sym s'. destruct (_ =? _); [constructor|]. apply agree_bind; [|auto]. unfold do_match_checked.
    destruct (_ >? _); [constructor|apply agree_refl]. }
  destruct (_ || _).
  - apply agree_same. intros c s1. destruct (_ >=? _); [apply After|]. apply agree_same. auto.
  - apply agree_same. intros nb s1. apply agree_same. intros [] s2. apply agree_same. intros c s3.
    destruct (negb _); [apply After|]. apply agree_same. intros c2 s4. apply agree_same. intros [] s5.
    destruct (negb _); [apply After|]. apply agree_same. auto.
Qed.
Lemma blocks_agree turns f : forall n s, agree (blocks n turns f s) (blocks_checked n turns f s).
Proof.
  induction n as [|n IH]; intros s; cbn [blocks blocks_checked]; [constructor|].
  apply agree_same. intros x s1. apply agree_bind; [|intros [] s2; destruct (_ =? 0); [apply IH|constructor]].
  destruct (_ =? 0); [apply agree_refl|]. destruct (_ =? 3); [constructor|]. destruct (_ =? 1).
  - unfold fixed_block, fixed_block_checked. apply agree_same. intros h1 s2. apply agree_same. intros h0 s3. apply codes_agree.
  - unfold dynamic_block, dynamic_block_checked. apply agree_same. intros a s2. apply agree_same. intros b s3.
    apply agree_same. intros c s4. apply agree_same. intros cl s5. apply agree_same. intros h2 s6. apply agree_same. intros l s7.
    destruct (negb _); [constructor|]. apply agree_same. intros h1 s8. apply agree_same. intros h0 s9. apply codes_agree.
Qed.
(** the states differ in the code still to be run *)
Definition same_state (a b : inflate_state) : Prop :=
  (forall s, agree (is_go a s) (is_go b s)) /\ is_bb a = is_bb b /\ is_nb a = is_nb b /\ is_dict a = is_dict b /\
  is_ofs a = is_ofs b /\ is_avail a = is_avail b /\ is_last a = is_last b.
Lemma decompress_agree a b input : same_state a b ->
  (exists st in1 n i, decompress b input = Ok (T_FAILED, in1, n, st) /\ i = input) \/
  (exists u, decompress a input = Undef u /\ decompress b input = Undef u) \/
  exists status in1 n sa sb, decompress a input = Ok (status, in1, n, sa) /\ decompress b input = Ok (status, in1, n, sb) /\ same_state sa sb.
Proof.
  intros (HG & E1 & E2 & E3 & E4 & E5 & E6). unfold decompress. rewrite E1, E2, E3, E4, E5.
  specialize (HG (mk_tst input (is_bb b) (is_nb b) (is_dict b) (is_ofs b))).
  destruct HG as [r s|[] s|s k k' H|s k k' H|u].
  - left. do 4 eexists. split; reflexivity.
  - right. right. do 5 eexists. split; [reflexivity|]. split; [reflexivity|]. split; [intros; constructor|now cbn].
  - right. right. do 5 eexists. split; [reflexivity|]. split; [reflexivity|]. split; [exact H|now cbn].
  - right. right. do 5 eexists. split; [reflexivity|]. split; [reflexivity|]. split; [exact H|now cbn].
  - right. left. eauto.
Qed.
Lemma hand_out_agree a b n : same_state a b ->
  (exists u, hand_out a n = Undef u /\ hand_out b n = Undef u) \/
  exists o sa sb, hand_out a n = Ok (o, sa) /\ hand_out b n = Ok (o, sb) /\ same_state sa sb.
Proof.
  intros (HG & E1 & E2 & E3 & E4 & E5 & E6). unfold hand_out. rewrite E3, E4, E5.
  destruct (_ <? 0); [left; eauto|]. destruct (memcpy_fault _ _ _); [left; eauto|]. right. eexists _, _, _. unfold handed_out.
  rewrite E1, E2, E3, E4, E5, E6. split; [reflexivity|]. split; [reflexivity|]. split; [exact HG|]. now cbn.
Qed.
(** two calls: the second fails, or both give the same *)
Definition both {A} (x y : outcome (A * inflate_state)) : Prop :=
  (exists u, x = Undef u /\ y = Undef u) \/ exists a sa sb, x = Ok (a, sa) /\ y = Ok (a, sb) /\ same_state sa sb.
Lemma inflate_loop_agree had : forall turns a b input avail w, same_state a b -> go_safe b -> is_avail b = 0 -> bytes_ok input -> 0 <= avail ->
  (exists in1 o st, inflate_loop turns b had input avail w = Ok (MZ_DATA_ERROR, in1, o, st)) \/
  both (inflate_loop turns a had input avail w) (inflate_loop turns b had input avail w).
Proof.
  induction turns as [|turns IH]; intros a b input avail w HS HGb HA HB Hav; cbn [inflate_loop]; [right; left; eauto|].
  destruct (decompress_safe b input HGb HA HB) as [_ D2].
  destruct (decompress_agree a b input HS) as [(st & in1 & n & i & E & _)|[(u & Ea & Eb)|(status & in1 & n & sa & sb & Ea & Eb & S1)]].
  - left. rewrite E. cbn [obind]. destruct (D2 _ _ _ _ E) as [G B]. destruct (hand_out_safe _ avail G Hav) as (o & st2 & -> & _).
    cbn [obind tstatus_eqb]. eauto.
  - right. left. rewrite Ea, Eb. cbn. eauto.
  - destruct (D2 _ _ _ _ Eb) as [G B]. rewrite Ea, Eb. cbn [obind].
    set (xa := mk_inflate (is_go sa) _ _ _ _ _ _). set (xb := mk_inflate (is_go sb) _ _ _ _ _ _) in *.
    assert (same_state xa xb) as SX by (destruct S1 as (HG & E1 & E2 & E3 & E4 & E5 & E6); split; [exact HG|unfold xa, xb; cbn [is_bb is_nb is_dict is_ofs is_avail is_last]; rewrite E1, E2, E3, E4, E6; repeat split]).
    destruct (hand_out_safe xb avail G Hav) as (o & yb & Eh & G2 & Ho & _).
    destruct (hand_out_agree xa xb avail SX) as [(u & _ & Eu)|(o' & ya & yb' & Eha & Ehb & S2)]; [congruence|].
    rewrite Eh in Ehb. injection Ehb as <- <-. rewrite Eha, Eh. cbn [obind].
    destruct (tstatus_eqb status T_FAILED); [left; eauto|].
    assert (is_avail ya = is_avail yb) as -> by apply S2.
    destruct (_ && _); [right; right; eauto 8|]. destruct (_ || _) eqn:EO; [right; right; eauto 8|].
    apply orb_false_iff in EO as [EO E4]. apply negb_false_iff, Z.eqb_eq in E4. apply IH; auto. lia.
Qed.
Lemma mz_inflate_agree turns a b input avail : same_state a b -> go_safe b -> bytes_ok input -> 0 <= avail ->
  (exists in1 o st, mz_inflate turns b input avail = Ok (MZ_DATA_ERROR, in1, o, st)) \/
  both (mz_inflate turns a input avail) (mz_inflate turns b input avail).
Proof.
  intros HS HG HB Hav. unfold mz_inflate. assert (is_last a = is_last b) as -> by apply HS. assert (is_avail a = is_avail b) as -> by apply HS.
  destruct (tstatus_eqb _ _); [left; eauto|]. destruct (negb (is_avail b =? 0)) eqn:EA; [|apply negb_false_iff, Z.eqb_eq in EA; now apply inflate_loop_agree].
  destruct (hand_out_agree a b avail HS) as [(u & -> & ->)|(o & ya & yb & -> & -> & S2)]; cbn [obind]; [right; left; eauto|].
  assert (is_avail ya = is_avail yb) as -> by apply S2. assert (is_last ya = is_last yb) as -> by apply S2. right. right. eauto 8.
Qed.
Lemma inflate_chunk_agree loops : forall turns a b input output, same_state a b -> go_safe b -> bytes_ok input ->
  inflate_chunk turns loops b input output = Throw RuntimeError \/
  both (inflate_chunk turns loops a input output) (inflate_chunk turns loops b input output).
Proof.
  induction turns as [|turns IH]; intros a b input output HS HG HB; cbn [inflate_chunk]; [right; left; eauto|].
  destruct (mz_inflate_safe loops b input CHUNK HG HB ltac:(unfold CHUNK; lia)) as [_ D2].
  destruct (mz_inflate_agree loops a b input CHUNK HS HG HB ltac:(unfold CHUNK; lia)) as [(in1 & o & st & E)|[(u & Ea & Eb)|([[ret in1] o] & sa & sb & Ea & Eb & S2)]].
  - left. rewrite E. reflexivity.
  - right. left. rewrite Ea, Eb. cbn. eauto.
  - destruct (D2 _ _ _ _ Eb) as [G2 B2]. rewrite Ea, Eb. cbn [obind]. destruct (ret =? MZ_DATA_ERROR); [now left|]. destruct (_ =? 0); [now apply IH|].
    right. right. eauto 8.
Qed.
Lemma inflate_chunks_agree loops : forall turns a b ret input output, same_state a b -> go_safe b -> bytes_ok input ->
  inflate_chunks turns loops b ret input output = Throw RuntimeError \/
  inflate_chunks turns loops a ret input output = inflate_chunks turns loops b ret input output.
Proof.
  induction turns as [|turns IH]; intros a b ret input output HS HG HB; cbn [inflate_chunks]; (destruct input as [|x t] eqn:Ei;
    [destruct (_ =? _); auto|]); [now right|]. rewrite <- Ei in *.
  assert (bytes_ok (ztake CHUNK input)) as HBt by now apply CutFacts.Forall_ztake.
  destruct (inflate_chunk_safe loops loops b (ztake CHUNK input) output HG HBt) as [_ D2].
  destruct (inflate_chunk_agree loops loops a b (ztake CHUNK input) output HS HG HBt) as [E|[(u & Ea & Eb)|([ret1 o] & sa & sb & Ea & Eb & S2)]].
  - left. rewrite E. reflexivity.
  - right. rewrite Ea, Eb. reflexivity.
  - rewrite Ea, Eb. cbn [obind]. destruct (_ =? _); [now right|]. apply IH; [exact S2|eapply D2; eauto|now apply CutFacts.Forall_zdrop].
Qed.
Lemma checked_agrees fuel z : bytes_ok z -> npy_inflate_checked fuel z = Throw RuntimeError \/ npy_inflate_upto fuel z = npy_inflate_checked fuel z.
Proof.
  intros HB. unfold npy_inflate_checked, npy_inflate_upto. apply inflate_chunks_agree; [|apply start_safe|exact HB]. split; [|now cbn]. intros s. apply blocks_agree.
Qed.
