(** Lemmas about Base.v and Stream.v. *)
From Coq Require Import String ZArith List Bool Lia.
From Verif Require Import Base Stream.
Import ListNotations.
Open Scope Z_scope.

Lemma len_nil A : len (@nil A) = 0. Proof. reflexivity. Qed.
Lemma len_cons A (x : A) l : len (x :: l) = 1 + len l.
Proof. unfold len. cbn [length]. lia. Qed.
Lemma len_app A (a b : list A) : len (a ++ b) = len a + len b.
Proof. unfold len. rewrite app_length. lia. Qed.
Lemma len_nonneg A (l : list A) : 0 <= len l. Proof. unfold len. lia. Qed.
Lemma len_rev A (l : list A) : len (rev l) = len l.
Proof. unfold len. now rewrite rev_length. Qed.
Lemma len_map A B (f : A -> B) l : len (map f l) = len l.
Proof. unfold len. now rewrite map_length. Qed.
Lemma len_repeat A (x : A) n : len (repeat x n) = Z.of_nat n.
Proof. unfold len. now rewrite repeat_length. Qed.
Lemma len_zrepeat A (x : A) n : len (zrepeat x n) = Z.max 0 n.
Proof. unfold zrepeat. rewrite len_repeat. lia. Qed.
Lemma len_0_nil A (l : list A) : len l = 0 -> l = [].
Proof. destruct l; [reflexivity|]. rewrite len_cons. pose proof (len_nonneg _ l). lia. Qed.

#[export] Hint Rewrite len_nil len_cons len_app len_rev len_map len_repeat len_zrepeat : len.
Ltac lens := autorewrite with len in *.

Lemma ztake_firstn A n (l : list A) : ztake n l = firstn (Z.to_nat n) l.
Proof.
  revert n. induction l as [|x l IH]; intros n; cbn [ztake].
  - now rewrite firstn_nil.
  - destruct (n <=? 0) eqn:E.
    + replace (Z.to_nat n) with O by lia. reflexivity.
    + replace (Z.to_nat n) with (S (Z.to_nat (n - 1))) by lia. cbn. now rewrite IH.
Qed.
Lemma zdrop_skipn A n (l : list A) : zdrop n l = skipn (Z.to_nat n) l.
Proof.
  revert n. induction l as [|x l IH]; intros n; cbn [zdrop].
  - now rewrite skipn_nil.
  - destruct (n <=? 0) eqn:E.
    + replace (Z.to_nat n) with O by lia. reflexivity.
    + replace (Z.to_nat n) with (S (Z.to_nat (n - 1))) by lia. cbn. now rewrite IH.
Qed.
Lemma ztake_zdrop A n (l : list A) : ztake n l ++ zdrop n l = l.
Proof. rewrite ztake_firstn, zdrop_skipn. apply firstn_skipn. Qed.
Lemma ztake_app_exact A n (a b : list A) : n = len a -> ztake n (a ++ b) = a.
Proof.
  intros ->. rewrite ztake_firstn. unfold len. rewrite Nat2Z.id.
  rewrite firstn_app, firstn_all, Nat.sub_diag. cbn. now rewrite app_nil_r.
Qed.
Lemma zdrop_app_exact A n (a b : list A) : n = len a -> zdrop n (a ++ b) = b.
Proof.
  intros ->. rewrite zdrop_skipn. unfold len. rewrite Nat2Z.id.
  rewrite skipn_app, skipn_all, Nat.sub_diag. reflexivity.
Qed.
Lemma ztake_all A n (a : list A) : len a <= n -> ztake n a = a.
Proof. intros. rewrite ztake_firstn. apply firstn_all2. unfold len in *. lia. Qed.
Lemma zdrop_all A n (a : list A) : len a <= n -> zdrop n a = [].
Proof. intros. rewrite zdrop_skipn. apply skipn_all2. unfold len in *. lia. Qed.
Lemma ztake_0 A n (a : list A) : n <= 0 -> ztake n a = [].
Proof. intros. rewrite ztake_firstn. now replace (Z.to_nat n) with O by lia. Qed.
Lemma zdrop_0 A n (a : list A) : n <= 0 -> zdrop n a = a.
Proof. intros. rewrite zdrop_skipn. now replace (Z.to_nat n) with O by lia. Qed.
Lemma len_ztake A n (l : list A) : len (ztake n l) = Z.max 0 (Z.min n (len l)).
Proof. rewrite ztake_firstn. unfold len. rewrite firstn_length. lia. Qed.
Lemma len_zdrop A n (l : list A) : len (zdrop n l) = Z.max 0 (len l - Z.max 0 n).
Proof. rewrite zdrop_skipn. unfold len. rewrite skipn_length. lia. Qed.
Lemma zdrop_zdrop A a b (l : list A) : 0 <= a -> 0 <= b -> zdrop a (zdrop b l) = zdrop (a + b) l.
Proof.
  intros. rewrite !zdrop_skipn. rewrite Z2Nat.inj_add by lia.
  generalize (Z.to_nat a) (Z.to_nat b). intros m n. revert l.
  induction n; intros l; cbn [skipn].
  - now rewrite Nat.add_0_r.
  - rewrite Nat.add_succ_r. destruct l; cbn [skipn]; [now rewrite skipn_nil | apply IHn].
Qed.
Lemma zdrop_app_le A n (a b : list A) : n <= len a -> zdrop n (a ++ b) = zdrop n a ++ b.
Proof.
  intros. rewrite !zdrop_skipn, skipn_app.
  replace (Z.to_nat n - length a)%nat with O by (unfold len in *; lia). reflexivity.
Qed.
Lemma zdrop_app_ge A n (a b : list A) : len a <= n -> zdrop n (a ++ b) = zdrop (n - len a) b.
Proof.
  intros. rewrite !zdrop_skipn, skipn_app. unfold len in *.
  rewrite (skipn_all2 a) by lia. cbn.
  f_equal. lia.
Qed.
Lemma ztake_app_le A n (a b : list A) : n <= len a -> ztake n (a ++ b) = ztake n a.
Proof.
  intros. rewrite !ztake_firstn, firstn_app.
  replace (Z.to_nat n - length a)%nat with O by (unfold len in *; lia).
  cbn. now rewrite app_nil_r.
Qed.
Lemma ztake_app_ge A n (a b : list A) : len a <= n -> ztake n (a ++ b) = a ++ ztake (n - len a) b.
Proof.
  intros. rewrite !ztake_firstn, firstn_app. unfold len in *.
  rewrite (firstn_all2 a) by lia. do 2 f_equal. lia.
Qed.

Lemma zrepeat_0 A (x : A) n : n <= 0 -> zrepeat x n = [].
Proof. intros. unfold zrepeat. now replace (Z.to_nat n) with O by lia. Qed.

Lemma beq_eq a b : beq a b = true <-> a = b.
Proof.
  revert b. induction a as [|x a IH]; intros [|y b]; cbn; try (split; congruence).
  rewrite andb_true_iff, IH, Z.eqb_eq. split; [intros [-> ->]; reflexivity|intros [= -> ->]; auto].
Qed.
Lemma beq_refl a : beq a a = true. Proof. now apply beq_eq. Qed.
Lemma beq_neq a b : beq a b = false <-> a <> b.
Proof.
  destruct (beq a b) eqn:E.
  - apply beq_eq in E. split; congruence.
  - split; [|reflexivity]. intros _ H. apply beq_eq in H. congruence.
Qed.
Lemma bytes_eq_dec (a b : bytes) : {a = b} + {a <> b}.
Proof. destruct (beq a b) eqn:E; [left; now apply beq_eq | right; now apply beq_neq]. Qed.

Lemma znth_some A (l : list A) i x : znth l i = Some x -> 0 <= i < len l.
Proof.
  unfold znth. destruct (i <? 0) eqn:E; [discriminate|]. intros H.
  assert (nth_error l (Z.to_nat i) <> None) as H' by congruence.
  apply nth_error_Some in H'. unfold len. lia.
Qed.
Lemma znth_in_range A (l : list A) i : 0 <= i < len l -> exists x, znth l i = Some x.
Proof.
  intros. unfold znth. destruct (i <? 0) eqn:E; [lia|].
  destruct (nth_error l (Z.to_nat i)) eqn:E2; [eauto|].
  apply nth_error_None in E2. unfold len in *. lia.
Qed.
Lemma znth_out A (l : list A) i : ~ (0 <= i < len l) -> znth l i = None.
Proof.
  intros. destruct (znth l i) eqn:E; [|reflexivity].
  apply znth_some in E. lia.
Qed.
Lemma znth_cons A (x : A) l i : 0 < i -> znth (x :: l) i = znth l (i - 1).
Proof.
  intros. unfold znth.
  destruct (i <? 0) eqn:E; [lia|]. destruct (i - 1 <? 0) eqn:E2; [lia|].
  replace (Z.to_nat i) with (S (Z.to_nat (i - 1))) by lia. reflexivity.
Qed.

Lemma nth_update_length A (l : list A) n x : length (nth_update l n x) = length l.
Proof. revert n. induction l; intros [|n]; cbn; auto. Qed.
Lemma nth_update_same A (l : list A) n x : (n < length l)%nat -> nth_error (nth_update l n x) n = Some x.
Proof. revert n. induction l; intros [|n]; cbn; intros; try lia; auto. apply IHl. lia. Qed.
Lemma nth_update_other A (l : list A) n m x : n <> m -> nth_error (nth_update l n x) m = nth_error l m.
Proof. revert n m. induction l; intros [|n] [|m]; cbn; intros; try congruence; auto. Qed.

Lemma bytes_ok_app a b : bytes_ok (a ++ b) <-> bytes_ok a /\ bytes_ok b.
Proof. apply Forall_app. Qed.
Lemma is_byteb_ok l : forallb (fun b => (0 <=? b) && (b <? 256)) l = true -> bytes_ok l.
Proof.
  intros H. apply Forall_forall. intros x Hx. rewrite forallb_forall in H.
  specialize (H x Hx). unfold is_byte. lia.
Qed.
Lemma str_ok s : bytes_ok (str s).
Proof.
  unfold str. apply Forall_map. apply Forall_forall. intros c _. unfold is_byte.
  pose proof (Ascii.N_ascii_bounded c). lia.
Qed.

(** *** Decimal text *)
Definition digitb (c : Z) : Prop := 48 <= c <= 57.

Lemma is_digit_spec c : is_digit c = true <-> digitb c.
Proof. unfold is_digit, digitb. rewrite andb_true_iff. lia. Qed.

Lemma digits_value_app a b :
  digits_value (a ++ b) = digits_value a * 10 ^ len b + digits_value b.
Proof.
  unfold digits_value. rewrite fold_left_app. generalize (fold_left (fun a0 c => 10 * a0 + (c - 48)) a 0).
  induction b as [|c b IH] using rev_ind; intros z.
  - cbn. lia.
  - rewrite !fold_left_app. cbn [fold_left]. rewrite IH. lens.
    replace (len b + (1 + 0)) with (Z.succ (len b)) by lia.
    rewrite Z.pow_succ_r by apply len_nonneg. lia.
Qed.

Lemma dec_aux_app f : forall z acc, dec_aux f z acc = dec_aux f z [] ++ acc.
Proof.
  induction f as [|f IH]; intros z acc; cbn [dec_aux]; [reflexivity|].
  destruct (z <? 10); [reflexivity|].
  rewrite IH. rewrite (IH _ [_]). now rewrite <- app_assoc.
Qed.

Lemma dec_aux_spec f : forall z, 0 <= z -> z < 2 ^ (Z.of_nat f) ->
  Forall digitb (dec_aux f z []) /\ digits_value (dec_aux f z []) = z.
Proof.
  induction f as [|f IH]; intros z H0 H1.
  - cbn in *. split; [constructor|]. unfold digits_value. cbn. lia.
  - cbn [dec_aux]. destruct (z <? 10) eqn:E.
    + split; [repeat constructor; unfold digitb; lia|]. unfold digits_value. cbn [fold_left]. lia.
    + rewrite dec_aux_app.
      assert (2 ^ Z.of_nat (S f) = 2 * 2 ^ Z.of_nat f) as HP.
      { rewrite Nat2Z.inj_succ, Z.pow_succ_r by lia. reflexivity. }
      destruct (IH (z / 10)) as [A B].
      { apply Z.div_pos; lia. }
      { apply Z.div_lt_upper_bound; lia. }
      split.
      * apply Forall_app. split; [exact A|].
        repeat constructor; unfold digitb; pose proof (Z.mod_pos_bound z 10 ltac:(lia)); lia.
      * rewrite digits_value_app, B. unfold digits_value. cbn [fold_left len length].
        change (10 ^ len [48 + z mod 10]) with 10.
        pose proof (Z.div_mod z 10 ltac:(lia)). lia.
Qed.

Lemma dec_log z : 0 <= z -> z < 2 ^ Z.of_nat (S (Z.to_nat (Z.log2 z))).
Proof.
  intros. rewrite Nat2Z.inj_succ, Z2Nat.id by apply Z.log2_nonneg.
  destruct (Z.eq_dec z 0) as [->|]; [now cbn|]. apply Z.log2_spec. lia.
Qed.
Lemma dec_digits z : 0 <= z -> Forall digitb (dec z).
Proof. intros. apply dec_aux_spec; auto. now apply dec_log. Qed.
Lemma dec_value z : 0 <= z -> digits_value (dec z) = z.
Proof. intros. apply dec_aux_spec; auto. now apply dec_log. Qed.
Lemma dec_aux_nonempty f z acc : acc <> [] -> dec_aux f z acc <> [].
Proof. revert z acc. induction f; intros; cbn; auto. destruct (z <? 10); [discriminate|]. apply IHf. discriminate. Qed.
Lemma dec_nonempty z : dec z <> [].
Proof.
  unfold dec. cbn [dec_aux]. destruct (z <? 10); [discriminate|]. apply dec_aux_nonempty. discriminate.
Qed.
Lemma dec_inj a b : 0 <= a -> 0 <= b -> dec a = dec b -> a = b.
Proof. intros Ha Hb H. rewrite <- (dec_value a), <- (dec_value b), H by auto. reflexivity. Qed.

Lemma dec_len_aux f : forall z k, 0 <= z -> 1 <= k -> z < 10 ^ k -> len (dec_aux f z []) <= k.
Proof.
  induction f as [|f IH]; intros z k Hz Hk H; cbn [dec_aux].
  - cbn. lia.
  - destruct (z <? 10) eqn:E; [cbn; lia|].
    rewrite dec_aux_app. lens.
    assert (1 < k) as Hk2.
    { destruct (Z.eq_dec k 1) as [->|]; [|lia]. change (10 ^ 1) with 10 in H. lia. }
    specialize (IH (z / 10) (k - 1)).
    enough (len (dec_aux f (z / 10) []) <= k - 1) by lia.
    apply IH; [apply Z.div_pos; lia | lia |].
    apply Z.div_lt_upper_bound; [lia|].
    replace k with (Z.succ (k - 1)) in H by lia. rewrite Z.pow_succ_r in H by lia. lia.
Qed.
Lemma dec_len_u64 z : 0 <= z <= max64 -> len (dec z) <= 20.
Proof. intros. apply dec_len_aux; unfold max64 in *; lia. Qed.
Lemma dec_len_pos z : 1 <= len (dec z).
Proof.
  pose proof (dec_nonempty z). destruct (dec z); [congruence|]. rewrite len_cons.
  pose proof (len_nonneg _ b). lia.
Qed.

(** *** Streams *)
Lemma good_open_str b : good (open_str b) = true. Proof. reflexivity. Qed.
Lemma set_rest_set_rest s a b : set_rest (set_rest s a) b = set_rest s b.
Proof. reflexivity. Qed.
Lemma rest_set_rest s a : rest (set_rest s a) = a. Proof. reflexivity. Qed.
Lemma good_set_rest s a : good (set_rest s a) = good s. Proof. reflexivity. Qed.
Lemma set_rest_id s : set_rest s (rest s) = s. Proof. now destruct s. Qed.
#[export] Hint Rewrite rest_set_rest good_set_rest set_rest_set_rest : stream.

Lemma sread_app s a r : good s = true -> rest s = a ++ r ->
  sread (len a) s = (a, set_rest s r).
Proof.
  intros G R. unfold sread. rewrite G, R, ztake_app_exact, zdrop_app_exact by reflexivity.
  now rewrite Z.ltb_irrefl.
Qed.
Lemma sget_cons s c r : good s = true -> rest s = c :: r -> sget s = (c, set_rest s r).
Proof. intros G R. unfold sget. now rewrite G, R. Qed.
Lemma speek_cons s c r : good s = true -> rest s = c :: r -> speek s = (c, s).
Proof. intros G R. unfold speek. now rewrite G, R. Qed.

Lemma take_until_app n d a r :
  len a < n -> Forall (fun c => c <> d) a -> (exists r', r = d :: r') ->
  take_until n d (a ++ r) = (a, r, false).
Proof.
  intros Hn HF [r' ->]. revert n Hn. induction a as [|c a IH]; intros n Hn; cbn [app take_until].
  - change (len (@nil Z)) with 0 in Hn. destruct (n <=? 0) eqn:E; [lia|]. now rewrite Z.eqb_refl.
  - inversion HF; subst. lens. pose proof (len_nonneg _ a).
    destruct (n <=? 0) eqn:E; [lia|]. destruct (c =? d) eqn:E2; [lia|].
    rewrite IH; auto. lia.
Qed.

Lemma sgetbuf_app n d s a r : good s = true -> rest s = a ++ d :: r -> a <> [] ->
  len a < n - 1 -> Forall (fun c => c <> d) a ->
  sgetbuf n d s = (a, set_rest s (d :: r)).
Proof.
  intros G R Ha Hn HF. unfold sgetbuf. rewrite G, R.
  rewrite take_until_app; eauto. cbv beta iota; destruct a; [congruence|reflexivity].
Qed.

Lemma drop_spaces_nonspace c l : is_space c = false -> drop_spaces (c :: l) = c :: l.
Proof. intros H. cbn. now rewrite H. Qed.
Lemma drop_spaces_app w l : Forall (fun c => is_space c = true) w -> drop_spaces (w ++ l) = drop_spaces l.
Proof. induction 1; cbn; [reflexivity|]. now rewrite H. Qed.

Lemma span_digits_app a r : Forall digitb a ->
  match r with [] => True | c :: _ => is_digit c = false end ->
  span_digits (a ++ r) = (a, r).
Proof.
  intros HF Hr. induction HF as [|c a Hc HF IH]; cbn [app span_digits].
  - destruct r; cbn; [reflexivity|]. now rewrite Hr.
  - apply is_digit_spec in Hc. rewrite Hc, IH. reflexivity.
Qed.

Lemma digit_not_space c : digitb c -> is_space c = false.
Proof. unfold digitb, is_space. intros. lia. Qed.
