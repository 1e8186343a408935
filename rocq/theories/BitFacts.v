(** Bits, and canonical codes: what both halves of miniz need. *)
From Coq Require Import ZArith List Bool Lia.
From Verif Require Import Base BaseFacts DeflateSpec Tinfl.
Import ListNotations.
Open Scope Z_scope.

Lemma pow2_pos n : 0 <= n -> 0 < 2 ^ n.
Proof. intros. apply Z.pow_pos_nonneg; lia. Qed.
Lemma pow2_S n : 0 <= n -> 2 ^ (n + 1) = 2 * 2 ^ n.
Proof. intros. rewrite Z.pow_add_r by lia. lia. Qed.
Lemma pow2_succ n : 2 ^ Z.of_nat (S n) = 2 * 2 ^ Z.of_nat n.
Proof. rewrite Nat2Z.inj_succ, Z.pow_succ_r by lia. reflexivity. Qed.
Lemma pow2_split a b : 0 <= a <= b -> 2 ^ b = 2 ^ a * 2 ^ (b - a).
Proof. intros. rewrite <- Z.pow_add_r by lia. f_equal. lia. Qed.

(** ** Values of bit strings, first bit least significant *)
Definition b2z (b : bool) : Z := if b then 1 else 0.
Fixpoint bval (b : list bool) : Z :=
  match b with [] => 0 | x :: t => b2z x + 2 * bval t end.

Lemma b2z_range b : 0 <= b2z b <= 1. Proof. destruct b; cbn; lia. Qed.
Lemma b2z_odd v : b2z (Z.odd v) = v mod 2.
Proof. unfold b2z. symmetry. apply Zmod_odd. Qed.
Lemma bval_range b : 0 <= bval b < 2 ^ Z.of_nat (length b).
Proof.
  induction b as [|x t IH]; cbn [bval length]; [cbn; lia|].
  rewrite pow2_succ. pose proof (b2z_range x). lia.
Qed.
Lemma bval_app a b : bval (a ++ b) = bval a + 2 ^ Z.of_nat (length a) * bval b.
Proof.
  induction a as [|x t IH]; cbn [bval app length].
  - change (2 ^ Z.of_nat 0) with 1. lia.
  - rewrite pow2_succ, IH. lia.
Qed.
Lemma lsb_length n v : length (lsb_bits n v) = n.
Proof. revert v. induction n; intros; cbn; auto. Qed.
Lemma lsb_len n v : len (lsb_bits n v) = Z.of_nat n.
Proof. unfold len. now rewrite lsb_length. Qed.
Lemma bval_lsb n v : bval (lsb_bits n v) = v mod 2 ^ Z.of_nat n.
Proof.
  revert v. induction n as [|n IH]; intros v.
  - cbn [lsb_bits bval]. change (2 ^ Z.of_nat 0) with 1. now rewrite Z.mod_1_r.
  - cbn [lsb_bits bval]. rewrite IH, pow2_succ, b2z_odd.
    rewrite (Z.rem_mul_r v 2 (2 ^ Z.of_nat n)); [lia | lia | apply pow2_pos; lia].
Qed.
Lemma lsb_bval b : lsb_bits (length b) (bval b) = b.
Proof.
  induction b as [|x t IH]; cbn [length lsb_bits bval]; [reflexivity|].
  rewrite Z.odd_add_mul_2. f_equal.
  - destruct x; reflexivity.
  - transitivity (lsb_bits (length t) (bval t)); [|exact IH]. f_equal.
    rewrite (Z.mul_comm 2), Z.div_add by lia. destruct x; cbn [b2z]; [change (1 / 2) with 0 | change (0 / 2) with 0]; lia.
Qed.
Lemma bval_inj a b : length a = length b -> bval a = bval b -> a = b.
Proof. intros H E. rewrite <- (lsb_bval a), <- (lsb_bval b). now rewrite H, E. Qed.
Lemma lsb_bits_app n m v :
  lsb_bits (n + m) v = lsb_bits n v ++ lsb_bits m (v / 2 ^ Z.of_nat n).
Proof.
  revert v. induction n as [|n IH]; intros v; cbn [Nat.add lsb_bits app].
  - change (2 ^ Z.of_nat 0) with 1. now rewrite Z.div_1_r.
  - f_equal. rewrite IH, pow2_succ. rewrite Z.div_div; [reflexivity | lia | apply pow2_pos; lia].
Qed.
Lemma lsb_mod n v : lsb_bits n (v mod 2 ^ Z.of_nat n) = lsb_bits n v.
Proof. rewrite <- bval_lsb. rewrite <- (lsb_length n v) at 1. apply lsb_bval. Qed.
Lemma lsb_0 n : lsb_bits n 0 = repeat false n.
Proof. induction n; cbn [lsb_bits repeat]; [reflexivity|]. f_equal. exact IHn. Qed.
Lemma lsb_mod_ge n m v : Z.of_nat n <= m -> lsb_bits n (v mod 2 ^ m) = lsb_bits n v.
Proof.
  intros. rewrite <- (lsb_mod n (v mod 2 ^ m)), <- (lsb_mod n v). f_equal.
  apply Z.eq_trans with ((v mod (2 ^ Z.of_nat n * 2 ^ (m - Z.of_nat n))) mod 2 ^ Z.of_nat n).
  - now rewrite <- pow2_split by lia.
  - rewrite Z.rem_mul_r by (try apply Z.pow_nonzero; try apply pow2_pos; lia).
    rewrite Z.mul_comm, Z_mod_plus_full. now rewrite Z.mod_mod by (apply Z.pow_nonzero; lia).
Qed.
Lemma bits_of_app a b : bits_of (a ++ b) = bits_of a ++ bits_of b.
Proof. apply flat_map_app. Qed.
Lemma bits_of_cons x t : bits_of (x :: t) = lsb_bits 8 x ++ bits_of t.
Proof. reflexivity. Qed.
Lemma bits_of_length l : length (bits_of l) = (8 * length l)%nat.
Proof. induction l; [reflexivity|]. rewrite bits_of_cons, app_length, lsb_length, IHl. cbn. lia. Qed.
Lemma bits_of_len l : len (bits_of l) = 8 * len l.
Proof. unfold len. rewrite bits_of_length. lia. Qed.

(** ** Machine words *)
Lemma lor_add a b : Z.land a b = 0 -> Z.lor a b = a + b.
Proof. intros H. rewrite Z.add_nocarry_lxor by assumption. symmetry. now apply Z.lxor_lor. Qed.
Lemma land_high_low a b n : 0 <= n -> 0 <= b < 2 ^ n -> Z.land (a * 2 ^ n) b = 0.
Proof.
  intros Hn Hb. apply Z.bits_inj'. intros i Hi. rewrite Z.land_spec, Z.bits_0.
  destruct (Z_lt_le_dec i n).
  - now rewrite Z.mul_pow2_bits_low by lia.
  - rewrite <- (Z.mod_small b (2 ^ n)) by lia. rewrite Z.mod_pow2_bits_high by lia. apply andb_false_r.
Qed.
Lemma lor_high_low a b n : 0 <= n -> 0 <= b < 2 ^ n -> Z.lor (a * 2 ^ n) b = a * 2 ^ n + b.
Proof. intros. apply lor_add. now apply land_high_low. Qed.
Lemma lor_low_high a b n : 0 <= n -> 0 <= b < 2 ^ n -> Z.lor b (a * 2 ^ n) = b + a * 2 ^ n.
Proof. intros. rewrite Z.lor_comm, lor_high_low by assumption. lia. Qed.
Lemma land_mask a n : 0 <= n -> Z.land a (Z.shiftl 1 n - 1) = a mod 2 ^ n.
Proof.
  intros. rewrite Z.shiftl_1_l. rewrite <- Z.land_ones by lia. now rewrite Z.ones_equiv, <- Z.sub_1_r.
Qed.

(** ** The reversed code *)
Lemma rev_code_val l code r :
  0 <= code -> 0 <= r ->
  rev_code l code r = r * 2 ^ Z.of_nat l + bval (rev (lsb_bits l code)).
Proof.
  revert code r. induction l as [|l IH]; intros code r Hc Hr; cbn [rev_code lsb_bits rev].
  - change (2 ^ Z.of_nat 0) with 1. cbn. lia.
  - assert (Z.land code 1 = b2z (Z.odd code)) as E1.
    { rewrite b2z_odd. change 1 with (Z.ones 1). now rewrite Z.land_ones by lia. }
    assert (Z.lor (Z.shiftl r 1) (Z.land code 1) = 2 * r + b2z (Z.odd code)) as E2.
    { rewrite E1. rewrite Z.shiftl_mul_pow2 by lia. change (2 ^ 1) with 2.
      change (r * 2) with (r * 2 ^ 1). rewrite lor_high_low; [lia|lia|].
      pose proof (b2z_range (Z.odd code)). change (2 ^ 1) with 2. lia. }
    rewrite E2. rewrite Z.shiftr_div_pow2 by lia. change (2 ^ 1) with 2.
    pose proof (b2z_range (Z.odd code)).
    rewrite IH; [|apply Z.div_pos; lia | lia].
    rewrite bval_app, rev_length, lsb_length, pow2_succ. cbn [bval]. lia.
Qed.
Lemma rev_code_bits l code : 0 <= code -> rev (lsb_bits l code) = lsb_bits l (rev_code l code 0).
Proof.
  intros. rewrite rev_code_val by lia. rewrite Z.mul_0_l, Z.add_0_l.
  rewrite <- (lsb_bval (rev (lsb_bits l code))) at 1. now rewrite rev_length, lsb_length.
Qed.
Lemma rev_code_range l code : 0 <= code -> 0 <= rev_code l code 0 < 2 ^ Z.of_nat l.
Proof.
  intros. rewrite rev_code_val by lia. rewrite Z.mul_0_l, Z.add_0_l.
  pose proof (bval_range (rev (lsb_bits l code))) as R. now rewrite rev_length, lsb_length in R.
Qed.

(** ** Canonical codes *)
Definition lens_ok (L : list Z) : Prop := Forall (fun x => 0 <= x <= 15) L.
Definition kraft (L : list Z) : Z := zsum (map space_of L).

Lemma code_len_cons x t s : 0 < s -> code_len (x :: t) s = code_len t (s - 1).
Proof.
  intros. unfold code_len. replace (Z.to_nat s) with (S (Z.to_nat (s - 1))) by lia. reflexivity.
Qed.
Lemma code_len_range L s : lens_ok L -> 0 <= code_len L s <= 15.
Proof.
  intros H. unfold code_len.
  destruct (nth_in_or_default (Z.to_nat s) L 0) as [Hin | ->]; [|lia].
  unfold lens_ok in H. rewrite Forall_forall in H. now apply H.
Qed.
Lemma code_len_out L s : len L <= s -> code_len L s = 0.
Proof. intros. unfold code_len. apply nth_overflow. unfold len in *. lia. Qed.
Lemma in_code_iff L s : 0 <= s -> in_code L s <-> 0 < code_len L s.
Proof.
  intros Hs. split; [intros [_ H]; exact H|]. intros H. split; [|exact H].
  split; [lia|]. destruct (Z_lt_le_dec s (len L)) as [|Hge]; [assumption|].
  rewrite code_len_out in H by lia. lia.
Qed.

Lemma space_before_nonneg L i s l : 0 <= space_before L i s l.
Proof.
  revert i. induction L as [|x t IH]; intros i; cbn [space_before]; [lia|].
  specialize (IH (i + 1)). destruct (_ && _) eqn:E; [|lia].
  assert (0 <= 2 ^ (l - x)) by (apply Z.pow_nonneg; lia). lia.
Qed.
Lemma space_before_mono L s s' l : s <= s' -> forall i, space_before L i s l <= space_before L i s' l.
Proof.
  intros Hs. induction L as [|x t IH]; intros i; cbn [space_before]; [lia|].
  specialize (IH (i + 1)). assert (0 <= 2 ^ (l - x)) by (apply Z.pow_nonneg; lia).
  destruct ((0 <? x) && ((x <? l) || ((x =? l) && (i <? s)))) eqn:E1;
  destruct ((0 <? x) && ((x <? l) || ((x =? l) && (i <? s')))) eqn:E2; lia.
Qed.
(** one more symbol *)
Lemma space_before_step L : forall i s l,
  i <= s < i + len L ->
  space_before L i (s + 1) l
  = space_before L i s l + (if (0 <? code_len L (s - i)) && (code_len L (s - i) =? l) then 1 else 0).
Proof.
  induction L as [|x t IH]; intros i s l H.
  - rewrite len_nil in H. lia.
  - cbn [space_before]. rewrite len_cons in H.
    destruct (Z.eq_dec s i) as [->|Hne].
    + (* this symbol; nothing later is below it *)
      assert (forall j, i < j -> space_before t j (i + 1) l = space_before t j i l) as Tail.
      { clear IH H. induction t as [|y t IHt]; intros j Hj; cbn [space_before]; [reflexivity|].
        rewrite IHt by lia.
        replace (j <? i + 1) with false by (symmetry; apply Z.ltb_ge; lia).
        replace (j <? i) with false by (symmetry; apply Z.ltb_ge; lia). reflexivity. }
      rewrite Tail by lia. rewrite Z.sub_diag. cbn [code_len nth Z.to_nat]. unfold code_len. cbn [Z.to_nat nth].
      replace (i <? i + 1) with true by (symmetry; apply Z.ltb_lt; lia).
      replace (i <? i) with false by (symmetry; apply Z.ltb_ge; lia).
      rewrite andb_true_r, andb_false_r, orb_false_r.
      destruct (0 <? x); cbn [andb]; [|lia].
      destruct (x =? l) eqn:E.
      * apply Z.eqb_eq in E. subst. rewrite Z.ltb_irrefl. cbn [orb]. rewrite Z.sub_diag. change (2 ^ 0) with 1. lia.
      * rewrite orb_false_r. destruct (x <? l); lia.
    + rewrite IH by lia. rewrite code_len_cons by lia. replace (s - i - 1) with (s - (i + 1)) by lia.
      replace (i <? s + 1) with true by (symmetry; apply Z.ltb_lt; lia).
      replace (i <? s) with true by (symmetry; apply Z.ltb_lt; lia). lia.
Qed.
(** one more length *)
Lemma count_size_cons x t l : count_size (x :: t) l = (if l =? x then 1 else 0) + count_size t l.
Proof. unfold count_size. cbn [filter]. destruct (l =? x); cbn [length]; lia. Qed.
Lemma space_before_next L : forall i s l,
  s <= i -> 0 < l ->
  space_before L i s (l + 1) = 2 * (space_before L i s l + count_size L l).
Proof.
  induction L as [|x t IH]; intros i s l Hi Hl; cbn [space_before]; [reflexivity|].
  rewrite IH by lia. rewrite count_size_cons.
  replace (i <? s) with false by (symmetry; apply Z.ltb_ge; lia).
  rewrite !andb_false_r, !orb_false_r.
  destruct (0 <? x) eqn:E0; cbn [andb].
  - destruct (x <? l) eqn:E1.
    + replace (x <? l + 1) with true by (symmetry; apply Z.ltb_lt; lia).
      replace (l =? x) with false by (symmetry; apply Z.eqb_neq; lia).
      replace (l + 1 - x) with (l - x + 1) by lia. rewrite pow2_S by lia. lia.
    + destruct (l =? x) eqn:E2.
      * apply Z.eqb_eq in E2. subst. replace (x <? x + 1) with true by (symmetry; apply Z.ltb_lt; lia).
        replace (x + 1 - x) with 1 by lia. lia.
      * replace (x <? l + 1) with false by (symmetry; apply Z.ltb_ge; lia). lia.
  - replace (l =? x) with false by (symmetry; apply Z.eqb_neq; lia). lia.
Qed.
Lemma space_before_1 L i s : s <= i -> space_before L i s 1 = 0.
Proof.
  revert i. induction L as [|x t IH]; intros i Hi; cbn [space_before]; [reflexivity|].
  rewrite IH by lia.
  replace (i <? s) with false by (symmetry; apply Z.ltb_ge; lia).
  rewrite andb_false_r, orb_false_r.
  destruct (0 <? x) eqn:E; cbn [andb]; [|lia].
  replace (x <? 1) with false by (symmetry; apply Z.ltb_ge; lia). lia.
Qed.

(** ** Code space *)
Fixpoint wsum (p : Z -> Z -> bool) (i : Z) (L : list Z) : Z :=
  match L with
  | [] => 0
  | x :: t => (if (0 <? x) && p i x then 2 ^ (15 - x) else 0) + wsum p (i + 1) t
  end.
Lemma wsum_all i L : wsum (fun _ _ => true) i L = kraft L.
Proof.
  revert i. induction L as [|x t IH]; intros i; cbn; [reflexivity|].
  rewrite IH. unfold kraft, space_of. rewrite andb_true_r. reflexivity.
Qed.
Lemma wsum_le p q L : forall i, lens_ok L ->
  (forall i x, p i x = true -> q i x = true) -> wsum p i L <= wsum q i L.
Proof.
  induction L as [|x t IH]; intros i HL H; cbn [wsum]; [lia|].
  inversion HL as [|? ? Hx Ht]; subst. specialize (IH (i + 1) Ht H).
  assert (0 <= 2 ^ (15 - x)) by (apply Z.pow_nonneg; lia).
  destruct (p i x) eqn:E; [rewrite (H _ _ E); lia|].
  rewrite andb_false_r. destruct (_ && _); lia.
Qed.
Lemma wsum_lt p q L : forall i k, lens_ok L ->
  (forall i x, p i x = true -> q i x = true) ->
  i <= k < i + len L -> 0 < code_len L (k - i) ->
  p k (code_len L (k - i)) = false -> q k (code_len L (k - i)) = true ->
  wsum p i L + 2 ^ (15 - code_len L (k - i)) <= wsum q i L.
Proof.
  induction L as [|x t IH]; intros i k HL H Hk H0 Hp Hq.
  - rewrite len_nil in Hk. lia.
  - cbn [wsum]. inversion HL as [|? ? Hx Ht]; subst. rewrite len_cons in Hk.
    destruct (Z.eq_dec k i) as [->|Hne].
    + rewrite Z.sub_diag in *. unfold code_len in H0, Hp, Hq |- *. cbn [nth Z.to_nat] in *.
      rewrite Hp, Hq, andb_false_r, andb_true_r. replace (0 <? x) with true by lia.
      pose proof (wsum_le p q t (i + 1) Ht H). lia.
    + rewrite code_len_cons in * by lia. replace (k - i - 1) with (k - (i + 1)) in * by lia.
      specialize (IH (i + 1) k Ht H ltac:(lia) H0 Hp Hq).
      assert (0 <= 2 ^ (15 - x)) by (apply Z.pow_nonneg; lia).
      destruct (p i x) eqn:E; [rewrite (H _ _ E); lia|].
      rewrite andb_false_r. destruct (_ && _); lia.
Qed.
Definition before (s l : Z) (i x : Z) : bool := (x <? l) || ((x =? l) && (i <? s)).
Lemma space_before_wsum L : forall i s l, lens_ok L -> 0 < l <= 15 ->
  space_before L i s l * 2 ^ (15 - l) = wsum (before s l) i L.
Proof.
  induction L as [|x t IH]; intros i s l HL Hl; cbn [space_before wsum]; [lia|].
  inversion HL as [|? ? Hx Ht]; subst. rewrite Z.mul_add_distr_r, IH by assumption. f_equal.
  unfold before. destruct (0 <? x) eqn:E0; cbn [andb]; [|lia].
  destruct ((x <? l) || ((x =? l) && (i <? s))) eqn:E; [|lia].
  rewrite <- Z.pow_add_r by lia. f_equal. lia.
Qed.
(** where the codeword of a symbol lies, scaled to 15 bits *)
Definition lo (L : list Z) (s : Z) : Z := code_value L s * 2 ^ (15 - code_len L s).
Definition hi (L : list Z) (s : Z) : Z := (code_value L s + 1) * 2 ^ (15 - code_len L s).
Lemma lo_wsum L s : lens_ok L -> in_code L s -> lo L s = wsum (before s (code_len L s)) 0 L.
Proof.
  intros HL [Hs H0]. pose proof (code_len_range L s HL). unfold lo, code_value.
  apply space_before_wsum; [assumption|lia].
Qed.
Lemma hi_lo L s : hi L s = lo L s + 2 ^ (15 - code_len L s).
Proof. unfold hi, lo. lia. Qed.
Lemma hi_kraft L s : lens_ok L -> in_code L s -> hi L s <= kraft L.
Proof.
  intros HL Hs. rewrite hi_lo, lo_wsum by assumption. rewrite <- (wsum_all 0).
  destruct Hs as [Hs H0].
  pose proof (wsum_lt (before s (code_len L s)) (fun _ _ => true) L 0 s HL) as W.
  rewrite Z.sub_0_r in W. apply W; auto; unfold before; lia.
Qed.
Lemma hi_lo_disjoint L s t : lens_ok L -> in_code L s -> in_code L t ->
  before t (code_len L t) s (code_len L s) = true -> hi L s <= lo L t.
Proof.
  intros HL Hs Ht B. rewrite hi_lo, !lo_wsum by assumption.
  destruct Hs as [Hs H0].
  pose proof (wsum_lt (before s (code_len L s)) (before t (code_len L t)) L 0 s HL) as W.
  rewrite Z.sub_0_r in W. apply W; auto; [|unfold before; lia].
  intros i x. unfold before in *. lia.
Qed.
Lemma before_total L s t : s <> t ->
  before t (code_len L t) s (code_len L s) = true \/ before s (code_len L s) t (code_len L t) = true.
Proof. intros. unfold before. lia. Qed.
Lemma code_value_range L s : lens_ok L -> kraft L <= 2 ^ 15 -> in_code L s ->
  0 <= code_value L s < 2 ^ code_len L s.
Proof.
  intros HL HK Hs. pose proof (hi_kraft L s HL Hs) as H. destruct Hs as [Hs H0].
  pose proof (code_len_range L s HL).
  split; [apply space_before_nonneg|]. unfold hi in H.
  rewrite (pow2_split (code_len L s) 15) in HK by lia.
  assert (0 < 2 ^ (15 - code_len L s)) by (apply pow2_pos; lia). nia.
Qed.
Lemma codeword_length L s : length (codeword L s) = Z.to_nat (code_len L s).
Proof. unfold codeword. now rewrite rev_length, lsb_length. Qed.
(** value of a codeword read first bit most significant *)
Definition mval (b : list bool) : Z := bval (rev b).
Lemma mval_app a b : mval (a ++ b) = mval a * 2 ^ Z.of_nat (length b) + mval b.
Proof. unfold mval. rewrite rev_app_distr, bval_app, rev_length. lia. Qed.
Lemma mval_range b : 0 <= mval b < 2 ^ Z.of_nat (length b).
Proof. unfold mval. rewrite <- rev_length. apply bval_range. Qed.
Lemma mval_codeword L s : lens_ok L -> kraft L <= 2 ^ 15 -> in_code L s ->
  mval (codeword L s) = code_value L s.
Proof.
  intros. unfold mval, codeword. rewrite rev_involutive, bval_lsb.
  apply Z.mod_small. pose proof (code_len_range L s H). rewrite Z2Nat.id by lia.
  now apply code_value_range.
Qed.
Lemma prefix_free L s t r : lens_ok L -> kraft L <= 2 ^ 15 -> in_code L s -> in_code L t ->
  codeword L t = codeword L s ++ r -> s = t.
Proof.
  intros HL HK Hs Ht E. destruct (Z.eq_dec s t) as [|Hne]; [assumption|exfalso].
  assert (code_value L t = code_value L s * 2 ^ Z.of_nat (length r) + mval r) as EV.
  { rewrite <- (mval_codeword L t), <- (mval_codeword L s) by assumption. now rewrite E, mval_app. }
  assert (Z.of_nat (length r) = code_len L t - code_len L s) as EL.
  { pose proof (code_len_range L s HL). pose proof (code_len_range L t HL).
    assert (length (codeword L t) = length (codeword L s) + length r)%nat as E2
      by (rewrite E; apply app_length).
    rewrite !codeword_length in E2. lia. }
  pose proof (mval_range r) as R. pose proof (code_len_range L t HL).
  assert (0 < code_len L s) by apply Hs.
  set (P := 2 ^ (15 - code_len L t)) in *.
  assert (0 < P) by (apply pow2_pos; lia).
  assert (2 ^ (15 - code_len L s) = 2 ^ Z.of_nat (length r) * P) as EP.
  { unfold P. rewrite <- Z.pow_add_r by lia. f_equal. lia. }
  assert (lo L s <= lo L t /\ hi L t <= hi L s) as [A B].
  { unfold lo, hi. rewrite EP, EV. nia. }
  assert (lo L t < hi L t) by (unfold lo, hi; nia).
  assert (lo L s < hi L s) by (rewrite hi_lo, EP; nia).
  destruct (before_total L s t Hne) as [D|D]; apply hi_lo_disjoint in D; auto; lia.
Qed.
Lemma kraft_nonneg L : lens_ok L -> 0 <= kraft L.
Proof.
  intros H. induction H as [|x l Hx Hl IH]; [cbn; lia|]. unfold kraft in *. cbn [map zsum].
  unfold space_of at 1. destruct (0 <? x); [|lia].
  assert (0 <= 2 ^ (15 - x)) by (apply Z.pow_nonneg; lia). lia.
Qed.
Lemma used_nonneg L : 0 <= used_symbols L.
Proof. induction L as [|x t IH]; unfold used_symbols in *; cbn [map zsum]; [lia|]. destruct (0 <? x); lia. Qed.
Lemma kraft_unused L : used_symbols L = 0 -> kraft L = 0.
Proof.
  induction L as [|x t IH]; [reflexivity|]. intros H. pose proof (used_nonneg t) as U.
  unfold used_symbols, kraft in *. cbn [map zsum] in *.
  unfold space_of at 1. destruct (0 <? x); [lia|]. rewrite IH; lia.
Qed.
Lemma valid_kraft L : valid_code L -> kraft L <= 2 ^ 15.
Proof.
  intros [HL [H|H]]; [unfold kraft; lia|].
  induction L as [|x t IH]; [cbn; lia|]. inversion HL as [|? ? Hx Ht]; subst.
  pose proof (used_nonneg t) as U. pose proof (kraft_unused t) as K.
  unfold used_symbols, kraft in *. cbn [map zsum] in *. unfold space_of at 1.
  destruct (0 <? x) eqn:E.
  - rewrite K by lia. assert (2 ^ (15 - x) <= 2 ^ 15) by (apply Z.pow_le_mono_r; lia). lia.
  - specialize (IH Ht). lia.
Qed.
