(** The decoding tables of tinfl are those of the canonical code. *)
From Coq Require Import ZArith List Bool Lia.
From Verif Require Import Base BaseFacts Arr DeflateSpec Tinfl BitFacts.
Import ListNotations.
Open Scope Z_scope.

(** ** Codes before symbol n *)
Lemma next_codes_loop_nth sizes : forall n i total k,
  0 < i -> total = space_before sizes 0 0 i -> (k < n)%nat ->
  nth k (next_codes_loop n i sizes total) 0 = space_before sizes 0 0 (i + 1 + Z.of_nat k).
Proof.
  induction n as [|n IH]; intros i total k Hi Ht Hk; [lia|].
  cbn [next_codes_loop].
  assert (Z.shiftl (total + count_size sizes i) 1 = space_before sizes 0 0 (i + 1)) as E.
  { rewrite Z.shiftl_mul_pow2, space_before_next by lia. subst. lia. }
  rewrite E. destruct k as [|k]; cbn [nth].
  - f_equal. lia.
  - rewrite IH; [f_equal; lia | lia | reflexivity | lia].
Qed.
Lemma next_codes_nth sizes l : 1 <= l <= 16 ->
  nth (Z.to_nat l) (next_codes sizes) 0 = space_before sizes 0 0 l.
Proof.
  intros. unfold next_codes. destruct (Z.eq_dec l 1) as [->|].
  - change (Z.to_nat 1) with 1%nat. cbn [nth]. now rewrite space_before_1.
  - replace (Z.to_nat l) with (S (S (Z.to_nat (l - 2)))) by lia. cbn [nth].
    rewrite next_codes_loop_nth; [f_equal; lia | lia | now rewrite space_before_1 | lia].
Qed.
Lemma next_codes_length sizes : length (next_codes sizes) = 17%nat.
Proof. reflexivity. Qed.
Lemma space_before_16 L i s : lens_ok L -> s <= i -> space_before L i s 16 = 2 * kraft L.
Proof.
  revert i. induction L as [|x t IH]; intros i HL Hi; cbn [space_before]; [reflexivity|].
  inversion HL as [|? ? Hx Ht]; subst. rewrite IH by (assumption || lia).
  unfold kraft. cbn [map zsum]. unfold space_of at 2. 
  destruct (0 <? x) eqn:E; cbn [andb]; [|lia].
  replace (x <? 16) with true by (symmetry; apply Z.ltb_lt; lia). cbn [orb].
  replace (16 - x) with (15 - x + 1) by lia. rewrite pow2_S by lia. lia.
Qed.
Lemma total_code_kraft L : lens_ok L -> total_code L = 2 * kraft L.
Proof.
  intros. unfold total_code. change 16%nat with (Z.to_nat 16). rewrite next_codes_nth by lia.
  now apply space_before_16.
Qed.
Lemma used_syms_eq L : lens_ok L -> used_syms L = used_symbols L.
Proof.
  intros H. unfold used_syms. cbn [seq fold_left Z.of_nat Pos.of_succ_nat Pos.succ].
  induction H as [|x l Hx Hl IH]; [reflexivity|].
  unfold used_symbols in *. cbn [map zsum]. rewrite <- IH. rewrite !count_size_cons.
  destruct (0 <? x) eqn:E.
  - assert (x = 1 \/ x = 2 \/ x = 3 \/ x = 4 \/ x = 5 \/ x = 6 \/ x = 7 \/ x = 8 \/ x = 9 \/ x = 10
            \/ x = 11 \/ x = 12 \/ x = 13 \/ x = 14 \/ x = 15) as Hc by lia.
    repeat (destruct Hc as [->|Hc]; [cbn [Z.eqb Pos.eqb]; lia|]). subst. cbn [Z.eqb Pos.eqb]. lia.
  - assert (x = 0) by lia. subst. cbn [Z.eqb]. lia.
Qed.

(** ** Bits of codewords *)
Lemma bval_firstn j w : (j <= length w)%nat -> bval (firstn j w) = bval w mod 2 ^ Z.of_nat j.
Proof.
  intros. rewrite <- (firstn_skipn j w) at 2. rewrite bval_app, firstn_length, Nat.min_l by lia.
  rewrite Z.mul_comm, Z_mod_plus_full. symmetry. apply Z.mod_small.
  pose proof (bval_range (firstn j w)) as R. now rewrite firstn_length, Nat.min_l in R by lia.
Qed.
Lemma bval_cons_shiftr x w : Z.shiftr (bval (x :: w)) 1 = bval w.
Proof.
  rewrite Z.shiftr_div_pow2 by lia. cbn [bval]. change (2 ^ 1) with 2.
  rewrite Z.mul_comm, Z.div_add by lia. destruct x; cbn [b2z];
    [change (1 / 2) with 0 | change (0 / 2) with 0]; lia.
Qed.
Lemma land1_odd v : Z.land v 1 = b2z (Z.odd v).
Proof. rewrite b2z_odd. change 1 with (Z.ones 1). now rewrite Z.land_ones by lia. Qed.
Lemma bval_cons_land x w : Z.land (bval (x :: w)) 1 = b2z x.
Proof.
  rewrite land1_odd. cbn [bval]. rewrite Z.odd_add_mul_2. destruct x; reflexivity.
Qed.
Lemma bval_shiftr w j : (j <= length w)%nat -> Z.shiftr (bval w) (Z.of_nat j) = bval (skipn j w).
Proof.
  intros. rewrite <- (firstn_skipn j w) at 1. rewrite bval_app, firstn_length, Nat.min_l by lia.
  rewrite Z.shiftr_div_pow2, Z.mul_comm, Z.div_add by (try apply Z.pow_nonzero; lia).
  rewrite Z.div_small; [lia|].
  pose proof (bval_range (firstn j w)) as R. now rewrite firstn_length, Nat.min_l in R by lia.
Qed.
Lemma lsb_firstn n m v : (n <= m)%nat -> lsb_bits n v = firstn n (lsb_bits m v).
Proof.
  intros. replace m with (n + (m - n))%nat by lia. rewrite lsb_bits_app, firstn_app, lsb_length.
  rewrite Nat.sub_diag. cbn [firstn]. rewrite app_nil_r. symmetry. apply firstn_all2.
  rewrite lsb_length. lia.
Qed.
Lemma lsb_bit n v j : (j < n)%nat -> nth j (lsb_bits n v) false = Z.odd (Z.shiftr v (Z.of_nat j)).
Proof.
  revert v j. induction n as [|n IH]; intros v j H; [lia|].
  destruct j as [|j]; cbn [lsb_bits nth].
  - now rewrite Z.shiftr_0_r.
  - rewrite IH by lia. f_equal. change 2 with (2 ^ 1). rewrite <- Z.shiftr_div_pow2 by lia.
    rewrite Z.shiftr_shiftr by lia. f_equal. lia.
Qed.
Lemma codeword_rev_code L s : 0 <= code_len L s ->
  bval (codeword L s) = rev_code (Z.to_nat (code_len L s)) (code_value L s) 0.
Proof.
  intros. pose proof (space_before_nonneg L 0 s (code_len L s)).
  unfold codeword. rewrite rev_code_val by (unfold code_value; lia). lia.
Qed.

(** ** The invariant of the table builder *)
Section Table.
Variable L : list Z.
Hypothesis HL : lens_ok L.
Hypothesis HK : kraft L <= 2 ^ 15.

Definition cw := codeword L.
Definition done (n s : Z) : Prop := in_code L s /\ s < n.
Definition proper_prefix (p w : list bool) : Prop := exists r, r <> [] /\ w = p ++ r.

Record labels_ok (m : Z) (labs : list (list bool)) : Prop := {
  lb_nodup : NoDup labs;
  lb_from : forall p, In p labs -> (10 <= length p)%nat /\ exists s, done m s /\ proper_prefix p (cw s)
}.
Record inv (m n : Z) (labs : list (list bool)) (look tree : arr) : Prop := {
  iv_labels : labels_ok m labs;
  iv_all : forall s p, done n s -> proper_prefix p (cw s) -> (10 <= length p)%nat -> In p labs;
  iv_look_node : forall k w, length w = 10%nat -> nth_error labs k = Some w ->
                 arr_get 0 look (bval w) = -1 - 2 * Z.of_nat k;
  iv_look_sym : forall s w r, length w = 10%nat -> done n s -> w = cw s ++ r ->
                arr_get 0 look (bval w) = code_len L s * 512 + s;
  iv_look_none : forall w, length w = 10%nat -> ~ In w labs ->
                 (forall s r, done n s -> w <> cw s ++ r) -> arr_get 0 look (bval w) = 0;
  iv_tree_node : forall k k' p b, nth_error labs k = Some p -> nth_error labs k' = Some (p ++ [b]) ->
                 arr_get 0 tree (2 * Z.of_nat k + b2z b) = -1 - 2 * Z.of_nat k';
  iv_tree_sym : forall k p b s, nth_error labs k = Some p -> done n s -> cw s = p ++ [b] ->
                arr_get 0 tree (2 * Z.of_nat k + b2z b) = s;
  iv_tree_none : forall k p b, nth_error labs k = Some p -> ~ In (p ++ [b]) labs ->
                 (forall s, done n s -> cw s <> p ++ [b]) ->
                 arr_get 0 tree (2 * Z.of_nat k + b2z b) = 0;
  iv_tree_free : forall i, 2 * len labs <= i -> arr_get 0 tree i = 0;
  iv_closed : forall p b, In (p ++ [b]) labs -> (10 <= length p)%nat -> In p labs
}.

Lemma cw_prefix s t r : in_code L s -> in_code L t -> cw t = cw s ++ r -> s = t.
Proof. apply prefix_free; assumption. Qed.
Lemma cw_not_proper s t : in_code L s -> in_code L t -> ~ proper_prefix (cw s) (cw t).
Proof.
  intros Hs Ht (r & Hr & E). assert (s = t) by (eapply cw_prefix; eauto). subst.
  apply (f_equal (@length bool)) in E. rewrite app_length in E. destruct r; [auto|cbn in E; lia].
Qed.
Lemma cw_length s : length (cw s) = Z.to_nat (code_len L s).
Proof. apply codeword_length. Qed.
(** two codewords at the start of the same string *)
Lemma cw_same s t a b : in_code L s -> in_code L t -> cw s ++ a = cw t ++ b -> s = t.
Proof.
  intros Hs Ht E.
  destruct (le_lt_dec (length (cw s)) (length (cw t))).
  - assert (cw t = cw s ++ skipn (length (cw s)) (cw t)) as E2.
    { assert (firstn (length (cw s)) (cw t) = cw s) as F.
      { transitivity (firstn (length (cw s)) (cw t ++ b)).
        - rewrite firstn_app. replace (length (cw s) - length (cw t))%nat with O by lia.
          cbn [firstn]. now rewrite app_nil_r.
        - rewrite <- E, firstn_app, Nat.sub_diag. cbn [firstn]. now rewrite app_nil_r, firstn_all. }
      etransitivity; [symmetry; apply (firstn_skipn (length (cw s)))|]. now rewrite F. }
    eapply cw_prefix; eauto.
  - symmetry.
    assert (cw s = cw t ++ skipn (length (cw t)) (cw s)) as E2.
    { assert (firstn (length (cw t)) (cw s) = cw t) as F.
      { transitivity (firstn (length (cw t)) (cw s ++ a)).
        - rewrite firstn_app. replace (length (cw t) - length (cw s))%nat with O by lia.
          cbn [firstn]. now rewrite app_nil_r.
        - rewrite E, firstn_app, Nat.sub_diag. cbn [firstn]. now rewrite app_nil_r, firstn_all. }
      etransitivity; [symmetry; apply (firstn_skipn (length (cw t)))|]. now rewrite F. }
    eapply cw_prefix; eauto.
Qed.
Lemma label_not_above m labs p s r : labels_ok m labs -> In p labs -> in_code L s -> p <> cw s ++ r.
Proof.
  intros H Hp Hs E. destruct (lb_from _ _ H p Hp) as (_ & t & [Ht _] & q & Hq & Et).
  apply (cw_not_proper s t Hs Ht). exists (r ++ q). split.
  - destruct r; [exact Hq|discriminate].
  - rewrite Et, E, app_assoc. reflexivity.
Qed.
Lemma nth_error_unique {A} (l : list A) i j x :
  NoDup l -> nth_error l i = Some x -> nth_error l j = Some x -> i = j.
Proof.
  intros N Hi Hj. rewrite NoDup_nth_error in N. apply N; [|congruence].
  apply nth_error_Some. congruence.
Qed.

(** ** Not too many labels *)
Definition level (j : Z) : Z := 2 ^ j - (space_before L 0 0 j + count_size L j).
Lemma sb_grow j l : 0 < j < l ->
  2 ^ (l - j) * (space_before L 0 0 j + count_size L j) <= space_before L 0 0 l.
Proof.
  intros H. replace l with (j + 1 + Z.of_nat (Z.to_nat (l - j - 1))) by lia.
  generalize (Z.to_nat (l - j - 1)) as n. induction n as [|n IH].
  - rewrite Z.add_0_r. rewrite space_before_next by lia. replace (j + 1 - j) with 1 by lia. lia.
  - replace (j + 1 + Z.of_nat (S n)) with (j + 1 + Z.of_nat n + 1) by lia.
    rewrite space_before_next by lia.
    replace (j + 1 + Z.of_nat n + 1 - j) with (j + 1 + Z.of_nat n - j + 1) by lia.
    rewrite pow2_S by lia.
    assert (0 <= count_size L (j + 1 + Z.of_nat n)) by (unfold count_size; lia). lia.
Qed.
Lemma prefix_value s p : in_code L s -> proper_prefix p (cw s) -> (1 <= length p)%nat ->
  2 ^ Z.of_nat (length p) - level (Z.of_nat (length p)) <= mval p.
Proof.
  intros Hs (r & Hr & E) Hp. unfold level.
  pose proof (mval_codeword L s HL HK Hs) as V. fold cw in V. rewrite E, mval_app in V.
  assert (code_len L s = Z.of_nat (length p) + Z.of_nat (length r)) as El.
  { pose proof (cw_length s) as C. rewrite E, app_length in C. destruct Hs as [_ H0]. lia. }
  assert (0 < Z.of_nat (length r)) by (destruct r; [congruence|cbn [length]; lia]).
  pose proof (sb_grow (Z.of_nat (length p)) (code_len L s) ltac:(lia)) as G.
  assert (space_before L 0 0 (code_len L s) <= code_value L s) as M
    by (unfold code_value; apply space_before_mono; apply Hs).
  replace (code_len L s - Z.of_nat (length p)) with (Z.of_nat (length r)) in G by lia.
  pose proof (mval_range r). assert (0 < 2 ^ Z.of_nat (length r)) by (apply pow2_pos; lia).
  nia.
Qed.
Lemma mval_inj a b : length a = length b -> mval a = mval b -> a = b.
Proof.
  intros H E. unfold mval in E. apply bval_inj in E; [|now rewrite !rev_length].
  now rewrite <- (rev_involutive a), E, rev_involutive.
Qed.
Fixpoint zseq (a : Z) (n : nat) : list Z := match n with O => [] | S n' => a :: zseq (a + 1) n' end.
Lemma zseq_length a n : length (zseq a n) = n.
Proof. revert a. induction n; intros; cbn; auto. Qed.
Lemma zseq_in a n x : In x (zseq a n) <-> a <= x < a + Z.of_nat n.
Proof.
  revert a. induction n as [|n IH]; intros a; cbn [zseq In]; [lia|]. rewrite IH. lia.
Qed.
Lemma level_count m labs j : labels_ok m labs -> (1 <= j)%nat -> 0 <= level (Z.of_nat j) ->
  Z.of_nat (length (filter (fun p => Nat.eqb (length p) j) labs)) <= level (Z.of_nat j).
Proof.
  intros [N F] Hj H0.
  set (l := filter _ labs).
  assert (forall p, In p l -> length p = j /\ In p labs) as Hl.
  { intros p Hp. apply filter_In in Hp. destruct Hp as [Hp Ep]. apply Nat.eqb_eq in Ep. auto. }
  assert (NoDup (map mval l)) as ND.
  { assert (NoDup l) as Nl by now apply NoDup_filter.
    clear N F. induction Nl as [|p l' Hni Nl IH]; cbn [map]; constructor.
    - intros Hin. apply in_map_iff in Hin. destruct Hin as (q & Eq & Hq).
      assert (q = p); [|subst; contradiction].
      apply mval_inj; [|assumption]. transitivity j; [|symmetry]; apply Hl; [right|left]; auto.
    - apply IH. intros q Hq. apply Hl. now right. }
  assert (incl (map mval l) (zseq (2 ^ Z.of_nat j - level (Z.of_nat j)) (Z.to_nat (level (Z.of_nat j))))) as I.
  { intros v Hv. apply in_map_iff in Hv. destruct Hv as (p & <- & Hp).
    destruct (Hl p Hp) as [Ep Hin]. destruct (F p Hin) as (_ & s & [Hs _] & Hpp).
    apply zseq_in. pose proof (prefix_value s p Hs Hpp ltac:(lia)) as V. rewrite Ep in V.
    pose proof (mval_range p) as R. rewrite Ep in R. lia. }
  pose proof (NoDup_incl_length ND I) as C. rewrite map_length, zseq_length in C. lia.
Qed.
Lemma level_next j : 0 < j -> level (j + 1) = 2 * level j - count_size L (j + 1).
Proof. intros. unfold level. rewrite space_before_next, pow2_S by lia. lia. Qed.
Lemma level_15 : kraft L = 2 ^ 15 -> level 15 = 0.
Proof.
  intros H. unfold level.
  pose proof (space_before_16 L 0 0 HL ltac:(lia)) as E. change 16 with (15 + 1) in E.
  rewrite space_before_next in E by lia. lia.
Qed.
Lemma counts_le : count_size L 11 + count_size L 12 + count_size L 13 + count_size L 14
  + count_size L 15 <= len L.
Proof.
  clear HL HK. induction L as [|x t IH]; [cbn; lia|]. rewrite !count_size_cons, len_cons.
  destruct (11 =? x) eqn:E1; destruct (12 =? x) eqn:E2; destruct (13 =? x) eqn:E3;
  destruct (14 =? x) eqn:E4; destruct (15 =? x) eqn:E5; lia.
Qed.
Lemma split_levels m labs : labels_ok m labs ->
  length labs = (length (filter (fun p => Nat.eqb (length p) 10) labs)
   + length (filter (fun p => Nat.eqb (length p) 11) labs)
   + length (filter (fun p => Nat.eqb (length p) 12) labs)
   + length (filter (fun p => Nat.eqb (length p) 13) labs)
   + length (filter (fun p => Nat.eqb (length p) 14) labs))%nat.
Proof.
  intros [_ F].
  assert (forall p, In p labs -> (10 <= length p <= 14)%nat) as H.
  { intros p Hp. destruct (F p Hp) as (H10 & s & [Hs _] & r & Hr & E). split; [exact H10|].
    pose proof (cw_length s) as C. rewrite E, app_length in C.
    pose proof (code_len_range L s HL). destruct r; [congruence|]. cbn [length] in C. lia. }
  clear F. induction labs as [|p l IH]; [reflexivity|].
  cbn [filter length]. rewrite IH by (intros; apply H; now right).
  specialize (H p (or_introl eq_refl)).
  assert (length p = 10 \/ length p = 11 \/ length p = 12 \/ length p = 13 \/ length p = 14)%nat as C by lia.
  repeat (destruct C as [C|C]; [rewrite C; cbn [Nat.eqb length]; lia|]). rewrite C. cbn [Nat.eqb length]. lia.
Qed.
Lemma labels_bound_full m labs : labels_ok m labs -> kraft L = 2 ^ 15 -> len L <= 288 -> len labs <= 288.
Proof.
  intros H K H288. pose proof (level_15 K) as L15.
  pose proof (level_next 10 ltac:(lia)) as N10. pose proof (level_next 11 ltac:(lia)) as N11.
  pose proof (level_next 12 ltac:(lia)) as N12. pose proof (level_next 13 ltac:(lia)) as N13.
  pose proof (level_next 14 ltac:(lia)) as N14. cbn [Z.add Pos.add Pos.succ] in *.
  assert (forall x, 0 <= count_size L x) as C0 by (intros; unfold count_size; lia).
  pose proof (C0 11); pose proof (C0 12); pose proof (C0 13); pose proof (C0 14); pose proof (C0 15).
  pose proof (level_count m labs 10 H ltac:(lia)) as B10.
  pose proof (level_count m labs 11 H ltac:(lia)) as B11.
  pose proof (level_count m labs 12 H ltac:(lia)) as B12.
  pose proof (level_count m labs 13 H ltac:(lia)) as B13.
  pose proof (level_count m labs 14 H ltac:(lia)) as B14.
  change (Z.of_nat 10) with 10 in *. change (Z.of_nat 11) with 11 in *. change (Z.of_nat 12) with 12 in *.
  change (Z.of_nat 13) with 13 in *. change (Z.of_nat 14) with 14 in *.
  pose proof counts_le as CL. unfold len at 1. rewrite (split_levels m labs H). lia.
Qed.
Lemma used_zero s : used_symbols L = 0 -> ~ in_code L s.
Proof.
  clear HL HK. intros U [Hs H0]. revert s Hs H0. induction L as [|x t IH]; intros s Hs H0.
  - rewrite len_nil in Hs. lia.
  - pose proof (used_nonneg t). unfold used_symbols in *. cbn [map zsum] in U.
    destruct (0 <? x) eqn:E; [lia|]. rewrite len_cons in Hs.
    destruct (Z.eq_dec s 0) as [->|]; [unfold code_len in H0; cbn in H0; lia|].
    rewrite code_len_cons in H0 by lia. apply (IH ltac:(lia) (s - 1)); lia.
Qed.
End Table.
Lemma used_one L : used_symbols L <= 1 -> forall s t, in_code L s -> in_code L t -> s = t.
Proof.
  induction L as [|x l IH]; intros U s t [Hs Hs0] [Ht Ht0].
  - rewrite len_nil in Hs. lia.
  - pose proof (used_nonneg l) as N. pose proof (used_zero l) as Z0. rewrite len_cons in *.
    unfold used_symbols in *. cbn [map zsum] in U.
    assert (forall u, 0 < u -> 0 <= u < 1 + len l -> 0 < code_len (x :: l) u -> in_code l (u - 1)) as D.
    { intros u H1 H2 H3. rewrite code_len_cons in H3 by lia. split; [lia|assumption]. }
    destruct (Z.eq_dec s 0) as [->|Hs1]; destruct (Z.eq_dec t 0) as [->|Ht1]; auto.
    + unfold code_len in Hs0. cbn in Hs0. replace (0 <? x) with true in U by lia.
      exfalso. apply (Z0 (t - 1)); [lia|]. apply D; lia.
    + unfold code_len in Ht0. cbn in Ht0. replace (0 <? x) with true in U by lia.
      exfalso. apply (Z0 (s - 1)); [lia|]. apply D; lia.
    + assert (s - 1 = t - 1); [|lia]. apply IH; [destruct (0 <? x); lia| |]; apply D; lia.
Qed.
Lemma labels_bound L m labs : lens_ok L -> valid_code L -> len L <= 288 ->
  labels_ok L m labs -> len labs <= 288.
Proof.
  intros HL V H288 H. pose proof (valid_kraft L V) as HK. destruct V as [_ [K|U]].
  - exact (labels_bound_full L HL HK m labs H K H288).
  - destruct labs as [|p0 labs0] eqn:El; [rewrite len_nil; lia|]. rewrite <- El in *.
    destruct (lb_from _ _ _ H p0 ltac:(rewrite El; now left)) as (_ & s & [Hs _] & _).
    pose proof (code_len_range L s HL) as R.
    assert (incl labs (map (fun j => firstn j (codeword L s)) (seq 0 15))) as I.
    { intros p Hp. destruct (lb_from _ _ _ H p Hp) as (_ & t & [Ht _] & r & Hr & E).
      assert (t = s) by (eapply used_one; eauto). subst t.
      apply in_map_iff. exists (length p). split.
      - unfold cw in E. rewrite E, firstn_app, Nat.sub_diag, firstn_all. cbn [firstn]. apply app_nil_r.
      - apply in_seq. unfold cw in E. pose proof (codeword_length L s) as C. rewrite E, app_length in C.
        destruct r; [congruence|cbn [length] in C; lia]. }
    pose proof (NoDup_incl_length (lb_nodup _ _ _ H) I) as C. rewrite map_length, seq_length in C.
    unfold len. lia.
Qed.
