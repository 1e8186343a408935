(** The in-place computation of Huffman code lengths (src/miniz/miniz.cpp 919-938):
    it stays inside the array, and the lengths it leaves fill the code space exactly. *)
From Coq Require Import ZArith List Bool Lia Permutation Sorted.
From Verif Require Import HuffCost Base Arr Tinfl Tdefl BaseFacts DeflateSpec BitFacts.
Import ListNotations.
Open Scope Z_scope.

Lemma key_at_ok n A i : 0 <= i < n -> key_at n A i = Ok (arr_get 0 A i).
Proof.
  intros. unfold key_at. replace (0 <=? i) with true by lia. now replace (i <? n) with true by lia.
Qed.
Lemma key_put_ok n A i x : 0 <= i < n -> key_put n A i x = Ok (arr_set A i (u16 x)).
Proof.
  intros. unfold key_put. replace (0 <=? i) with true by lia. now replace (i <? n) with true by lia.
Qed.
Lemma u16_small x : 0 <= x < 65536 -> u16 x = x.
Proof. intros. unfold u16. now apply Z.mod_small. Qed.

(** sums over ranges *)
Fixpoint fsum (k : nat) (f : Z -> Z) (a : Z) : Z :=
  match k with O => 0 | S k' => f a + fsum k' f (a + 1) end.
Definition rsum (f : Z -> Z) (a b : Z) : Z := fsum (Z.to_nat (b - a)) f a.
Lemma rsum_nil f a b : b <= a -> rsum f a b = 0.
Proof. intros. unfold rsum. now replace (Z.to_nat (b - a)) with O by lia. Qed.
Lemma rsum_cons f a b : a < b -> rsum f a b = f a + rsum f (a + 1) b.
Proof. intros. unfold rsum. replace (Z.to_nat (b - a)) with (S (Z.to_nat (b - (a + 1)))) by lia. reflexivity. Qed.
Lemma fsum_snoc k f a : fsum (S k) f a = fsum k f a + f (a + Z.of_nat k).
Proof.
  revert a. induction k as [|k IH]; intros a.
  - cbn [fsum]. replace (a + Z.of_nat 0) with a by lia. lia.
  - change (fsum (S (S k)) f a) with (f a + fsum (S k) f (a + 1)). rewrite IH.
    cbn [fsum]. replace (a + 1 + Z.of_nat k) with (a + Z.of_nat (S k)) by lia. lia.
Qed.
Lemma rsum_snoc f a b : a <= b -> rsum f a (b + 1) = rsum f a b + f b.
Proof.
  intros. unfold rsum. replace (Z.to_nat (b + 1 - a)) with (S (Z.to_nat (b - a))) by lia.
  rewrite fsum_snoc. f_equal. f_equal. lia.
Qed.
Lemma fsum_ext k f g a : (forall i, a <= i < a + Z.of_nat k -> f i = g i) -> fsum k f a = fsum k g a.
Proof.
  revert a. induction k as [|k IH]; intros a H; cbn [fsum]; [reflexivity|].
  rewrite H by lia. f_equal. apply IH. intros. apply H. lia.
Qed.
Lemma rsum_ext f g a b : (forall i, a <= i < b -> f i = g i) -> rsum f a b = rsum g a b.
Proof. intros H. unfold rsum. apply fsum_ext. intros. apply H. lia. Qed.
Lemma fsum_nonneg k f a : (forall i, a <= i < a + Z.of_nat k -> 0 <= f i) -> 0 <= fsum k f a.
Proof.
  revert a. induction k as [|k IH]; intros a H; cbn [fsum]; [lia|].
  specialize (IH (a + 1)). assert (0 <= f a) by (apply H; lia).
  assert (0 <= fsum k f (a + 1)) by (apply IH; intros; apply H; lia). lia.
Qed.
Lemma rsum_nonneg f a b : (forall i, a <= i < b -> 0 <= f i) -> 0 <= rsum f a b.
Proof. intros H. unfold rsum. apply fsum_nonneg. intros. apply H. lia. Qed.

Fixpoint flist (k : nat) (f : Z -> Z) (a : Z) : list Z :=
  match k with O => [] | S k' => f a :: flist k' f (a + 1) end.
Definition rlist (f : Z -> Z) (a b : Z) : list Z := flist (Z.to_nat (b - a)) f a.
Lemma rlist_nil f a b : b <= a -> rlist f a b = [].
Proof. intros. unfold rlist. now replace (Z.to_nat (b - a)) with O by lia. Qed.
Lemma rlist_cons f a b : a < b -> rlist f a b = f a :: rlist f (a + 1) b.
Proof. intros. unfold rlist. replace (Z.to_nat (b - a)) with (S (Z.to_nat (b - (a + 1)))) by lia. reflexivity. Qed.
Lemma flist_ext k f g : forall a, (forall i, a <= i < a + Z.of_nat k -> f i = g i) -> flist k f a = flist k g a.
Proof.
  induction k as [|k IH]; intros a H; cbn [flist]; [reflexivity|]. rewrite H by lia. f_equal. apply IH. intros. apply H. lia.
Qed.
Lemma rlist_ext f g a b : (forall i, a <= i < b -> f i = g i) -> rlist f a b = rlist g a b.
Proof. intros H. apply flist_ext. intros. apply H. lia. Qed.
Lemma flist_length k f a : length (flist k f a) = k.
Proof. revert a. induction k; intros a; cbn [flist length]; [reflexivity|]. now rewrite IHk. Qed.
Lemma rlist_length f a b : length (rlist f a b) = Z.to_nat (b - a).
Proof. apply flist_length. Qed.
Lemma rlist_sum f a b : zsum (rlist f a b) = rsum f a b.
Proof. unfold rlist, rsum. generalize (Z.to_nat (b - a)). intros k. revert a. induction k; intros a; cbn [flist fsum zsum]; [reflexivity|]. now rewrite IHk. Qed.
Lemma rlist_Forall (P : Z -> Prop) f a b : (forall i, a <= i < b -> P (f i)) -> Forall P (rlist f a b).
Proof.
  unfold rlist. intros H. assert (forall k a', a <= a' -> a' + Z.of_nat k <= b \/ k = O -> Forall P (flist k f a')) as K; [|apply K; lia].
  induction k as [|k IH]; intros a' H1 H2; cbn [flist]; constructor; [apply H; lia|]. apply IH; [lia|]. destruct k; [now right|left; lia].
Qed.
Lemma rlist_app f a b c : a <= b <= c -> rlist f a c = rlist f a b ++ rlist f b c.
Proof.
  intros H. unfold rlist. replace (Z.to_nat (c - a)) with (Z.to_nat (b - a) + Z.to_nat (c - b))%nat by lia.
  assert (forall k j x, flist (k + j) f x = flist k f x ++ flist j f (x + Z.of_nat k)) as K.
  { induction k as [|k IH]; intros j x; cbn [Nat.add flist app]; [f_equal; lia|]. rewrite IH. do 3 f_equal. lia. }
  rewrite K. do 2 f_equal. lia.
Qed.
Lemma rsum_app f a b c : a <= b <= c -> rsum f a c = rsum f a b + rsum f b c.
Proof. intros. rewrite <- !rlist_sum, (rlist_app f a b c) by lia. apply zs_app. Qed.

Definition upd (f : Z -> Z) (i x : Z) : Z -> Z := fun j => if j =? i then x else f j.
Lemma upd_same f i x : upd f i x i = x.
Proof. unfold upd. now rewrite Z.eqb_refl. Qed.
Lemma upd_other f i j x : j <> i -> upd f i x j = f j.
Proof. intros. unfold upd. now replace (j =? i) with false by lia. Qed.

Section Merge.
Context (n : Z) (f : Z -> Z) (F : Z).
Hypothesis n_ge : 2 <= n <= 65536.
Hypothesis f_sorted : forall i j, 0 <= i <= j -> j < n -> f i <= f j.
Hypothesis f_pos : forall i, 0 <= i < n -> 1 <= f i.
Hypothesis F_small : F <= 65535.

(** the array while node [next] is being made: nodes below [root] hold the index of
    their parent, nodes root .. next-1 their weight, leaves from [leaf] on theirs *)
Definition holds (A : arr) (par w : Z -> Z) (root next leaf : Z) : Prop :=
  (forall i, 0 <= i < root -> arr_get 0 A i = par i) /\
  (forall i, root <= i < next -> arr_get 0 A i = w i) /\
  (forall i, leaf <= i < n -> arr_get 0 A i = f i).

(** facts that do not mention the array *)
Record shape (par w : Z -> Z) (root next leaf : Z) (m : Z) : Prop := {
  sh_par : forall i, 0 <= i < root -> i < par i <= next;
  sh_mono : forall i j, 0 <= i <= j -> j < root -> par i <= par j;
  sh_two : forall i, 0 <= i -> i + 2 < root -> par i < par (i + 2);
  sh_up : forall i, 0 <= i < root -> par i < next -> w i <= w (par i);
  sh_w : forall i j, 0 <= i <= j -> j < next -> w i <= w j;
  sh_w0 : forall i, 0 <= i < next -> 2 <= w i;
  sh_grand : forall i, 0 <= i < root -> par i < root -> par (par i) < next -> 2 * w i <= w (par (par i));
  sh_used : forall i, 0 <= i < root -> w i <= m;
  sh_in : forall i, root <= i < next -> m <= w i;
  sh_leaf : forall i, leaf <= i < n -> m <= f i
}.
(** what one of the two takes does; [x] is the key taken *)
Lemma take_ok check acc A par w root next leaf m :
  0 <= root -> root < next \/ (check = true /\ leaf < n) -> root <= next -> next < leaf -> leaf <= n -> next < n -> 0 <= m -> 0 <= acc ->
  holds A par w root next leaf -> shape par w root next leaf m ->
  acc + rsum w root next + rsum f leaf n <= 65535 ->
  (forall i, 0 <= i < root -> par i = next -> i = root - 1) ->
  exists A' root' leaf' x par',
    take_smaller n check acc next (A, root, leaf) = Ok (A', root', leaf') /\
    ((root' = root + 1 /\ leaf' = leaf /\ root < next /\ x = w root /\ par' = upd par root next) \/
     (root' = root /\ leaf' = leaf + 1 /\ leaf < n /\ x = f leaf /\ par' = par)) /\
    holds A' par' w root' next leaf' /\ arr_get 0 A' next = acc + x /\
    shape par' w root' next leaf' x /\ m <= x /\
    x + rsum w root' next + rsum f leaf' n = rsum w root next + rsum f leaf n.
Proof.
  intros Hr Hc Hrn Hnl Hln Hn Hm Ha (HA1 & HA2 & HA3) HS Hsum Hlast.
  assert (forall i, root <= i < next -> 0 <= w i) as Wpos.
  { intros i Hi. pose proof (sh_w0 _ _ _ _ _ _ HS i). lia. }
  assert (forall i, leaf <= i < n -> 0 <= f i) as Fpos by (intros i Hi; specialize (f_pos i); lia).
  unfold take_smaller.
  set (inner := if leaf >=? n then Ok true
     else if check && negb (root <? next) then Ok false
     else let* a := key_at n A root in let* b := key_at n A leaf in Ok (a <? b)).
  assert (exists b, inner = Ok b /\
            (b = true -> root < next /\ (leaf < n -> w root <= f leaf)) /\
            (b = false -> leaf < n /\ (root < next -> f leaf <= w root))) as (b & Eb & Bt & Bf).
  { unfold inner. destruct (Z.geb_spec leaf n) as [Hl|Hl].
    - exists true. split; [reflexivity|]. split; [|discriminate]. intros _. split; [lia|lia].
    - destruct (Z.ltb_spec root next) as [Hlt|Hge].
      + rewrite andb_false_r. rewrite !key_at_ok by lia. cbn [obind].
        rewrite (HA2 root) by lia. rewrite (HA3 leaf) by lia. exists (w root <? f leaf).
        split; [reflexivity|]. destruct (Z.ltb_spec (w root) (f leaf)); split; try discriminate; lia.
      + destruct Hc as [Hc|[-> Hc]]; [lia|]. cbn [andb negb]. exists false. split; [reflexivity|].
        split; [discriminate|lia]. }
  change (if leaf >=? n then Ok true else if check && negb (root <? next) then Ok false
     else let* a := key_at n A root in let* b := key_at n A leaf in Ok (a <? b)) with inner.
  rewrite Eb. cbn [obind]. destruct b.
  - destruct (Bt eq_refl) as [Hlt Hle]. rewrite key_at_ok by lia. cbn [obind].
    rewrite (HA2 root) by lia.
    pose proof (rsum_cons w root next Hlt) as SC.
    assert (0 <= rsum w (root + 1) next) by (apply rsum_nonneg; intros; apply Wpos; lia).
    assert (0 <= rsum f leaf n) by (apply rsum_nonneg; assumption).
    rewrite key_put_ok by lia. cbn [obind]. rewrite key_put_ok by lia. cbn [obind].
    pose proof (Wpos root ltac:(lia)).
    rewrite (u16_small (acc + w root)) by lia. rewrite (u16_small next) by lia.
    exists (arr_set (arr_set A next (acc + w root)) root next), (root + 1), leaf, (w root), (upd par root next).
    split; [reflexivity|]. split; [left; repeat split; lia|]. split.
    { repeat split; intros i Hi.
      - destruct (Z.eq_dec i root) as [->|]; [now rewrite arr_get_same, upd_same|].
        rewrite !arr_get_other by lia. rewrite upd_other by lia. apply HA1. lia.
      - rewrite !arr_get_other by lia. apply HA2. lia.
      - rewrite !arr_get_other by lia. apply HA3. lia. }
    split; [rewrite arr_get_other by lia; apply arr_get_same|].
    split; [|split; [apply (sh_in _ _ _ _ _ _ HS); lia|lia]].
    destruct HS. constructor.
    + intros i Hi. unfold upd. destruct (Z.eqb_spec i root); [lia|]. apply sh_par0. lia.
    + intros i j Hi Hj. unfold upd. destruct (Z.eqb_spec i root), (Z.eqb_spec j root); try lia.
      * pose proof (sh_par0 i). lia.
      * apply sh_mono0; lia.
    + intros i Hi Hi2. unfold upd. destruct (Z.eqb_spec i root), (Z.eqb_spec (i + 2) root); try lia.
      * pose proof (sh_par0 i ltac:(lia)). destruct (Z.eq_dec (par i) next) as [E|]; [|lia].
        specialize (Hlast i ltac:(lia) E). lia.
      * apply sh_two0; lia.
    + intros i Hi. unfold upd. destruct (Z.eqb_spec i root); [lia|]. apply sh_up0. lia.
    + assumption.
    + assumption.
    + intros i Hi. unfold upd. destruct (Z.eqb_spec i root) as [->|Hne].
      * intros. lia.
      * destruct (Z.eqb_spec (par i) root); [lia|]. intros. apply sh_grand0; lia.
    + intros i Hi. apply sh_w1; lia.
    + intros i Hi. apply sh_w1; lia.
    + intros i Hi. apply Z.le_trans with (f leaf); [apply Hle; lia|].
      destruct (Z.eq_dec leaf n); [lia|]. apply f_sorted; lia.
  - destruct (Bf eq_refl) as [Hlt Hle]. rewrite key_at_ok by lia. cbn [obind].
    rewrite (HA3 leaf) by lia.
    pose proof (rsum_cons f leaf n Hlt) as SC.
    assert (0 <= rsum f (leaf + 1) n) by (apply rsum_nonneg; intros; apply Fpos; lia).
    assert (0 <= rsum w root next) by (apply rsum_nonneg; assumption).
    rewrite key_put_ok by lia. cbn [obind]. pose proof (Fpos leaf ltac:(lia)).
    rewrite (u16_small (acc + f leaf)) by lia.
    exists (arr_set A next (acc + f leaf)), root, (leaf + 1), (f leaf), par.
    split; [reflexivity|]. split; [right; repeat split; lia|]. split.
    { repeat split; intros i Hi.
      - rewrite !arr_get_other by lia. apply HA1. lia.
      - rewrite !arr_get_other by lia. apply HA2. lia.
      - rewrite !arr_get_other by lia. apply HA3. lia. }
    split; [apply arr_get_same|].
    split; [|split; [apply (sh_leaf _ _ _ _ _ _ HS); lia|lia]].
    destruct HS. constructor; try assumption.
    + intros i Hi. apply Z.le_trans with m; [now apply sh_used0|]. apply sh_leaf0. lia.
    + intros i Hi. apply Z.le_trans with (w root); [apply Hle; lia|]. apply sh_w1; lia.
    + intros i Hi. apply f_sorted; lia.
Qed.

(** [rt t] is the number of nodes consumed when node [t] is begun *)
Record merged (A : arr) (par w : Z -> Z) (root next leaf m : Z) (rt : Z -> Z) : Prop := {
  mg_root : 0 <= root < next;
  mg_sum : root + leaf = 2 * next;
  mg_leaf : leaf <= n;
  mg_holds : holds A par w root next leaf;
  mg_shape : shape par w root next leaf m;
  mg_par : forall i, 0 <= i < root -> par i < next;
  mg_m : 1 <= m;
  mg_last : w (next - 1) <= 2 * m;
  mg_total : rsum w root next + rsum f leaf n = F;
  mg_now : rt next = root;
  mg_level : forall t, 1 <= t <= next -> 0 <= rt t <= root /\ 2 * t - rt t <= leaf /\ rsum w (rt t) t + rsum f (2 * t - rt t) n = F;
  mg_when : forall t i, 1 <= t <= next -> 0 <= i < root -> (i < rt t <-> par i < t);
  mg_fib : forall i, 0 <= i < root -> par i < root -> w i + w (par i) <= w (par (par i));
  mg_lused : forall k, 0 <= k < leaf -> f k <= m;
  mg_lfib : forall t k, 0 <= t < next -> 0 <= k < 2 * (t + 1) - rt (t + 1) -> f k <= w t /\ (t < root -> f k + w t <= w (par t))
}.
Definition items (w : Z -> Z) (root next leaf : Z) : list Z := rlist w root next ++ rlist f leaf n.

Lemma merge_step A par w root next leaf m rt :
  1 <= next < n - 1 -> merged A par w root next leaf m rt ->
  exists A1 root1 leaf1 A2 root2 leaf2 par2 w2 m2 rt2 x y,
    take_smaller n false 0 next (A, root, leaf) = Ok (A1, root1, leaf1) /\
    take_smaller n true (arr_get 0 A1 next) next (A1, root1, leaf1) = Ok (A2, root2, leaf2) /\
    merged A2 par2 w2 root2 (next + 1) leaf2 m2 rt2 /\
    w2 next = x + y /\ (forall i, i < next -> w2 i = w i) /\ x <= y /\
    Permutation (items w root next leaf) (x :: y :: items w root2 next leaf2) /\ Forall (fun z => y <= z) (items w root2 next leaf2) /\
    root2 <= next.
Proof.
  intros Hn HM. destruct HM as [Hr Hs Hl HH HS HP Hm HL HT HNOW HLEV HWH HFIB HLU HLF].
  destruct (take_ok false 0 A par w root next leaf m) as
    (A1 & root1 & leaf1 & x & par1 & T1 & C1 & H1 & X1 & S1 & L1 & M1); try assumption; try lia.
  { intros i Hi E. specialize (HP i Hi). lia. }
  assert (root + 1 = root1 \/ root = root1) as Hr1 by (destruct C1 as [C|C]; lia).
  assert (root1 + leaf1 = 2 * next + 1) as Hs1 by (destruct C1 as [C|C]; lia).
  assert (leaf1 <= n) as Hl1 by (destruct C1 as [C|C]; lia).
  assert (root1 <= next) as Hrn1 by (destruct C1 as [C|C]; lia).
  assert (forall i, 0 <= i < root1 -> par1 i = next -> i = root1 - 1) as HP1.
  { intros i Hi E. destruct C1 as [(E1 & _ & _ & _ & ->)|(E1 & _ & _ & _ & ->)].
    - destruct (Z.eq_dec i root); [lia|]. rewrite upd_other in E by lia. specialize (HP i ltac:(lia)). lia.
    - specialize (HP i ltac:(lia)). lia. }
  destruct (take_ok true x A1 par1 w root1 next leaf1 x) as
    (A2 & root2 & leaf2 & y & par2 & T2 & C2 & H2 & X2 & S2 & L2 & M2); try assumption; try lia.
  exists A1, root1, leaf1, A2, root2, leaf2, par2, (upd w next (x + y)), y, (upd rt (next + 1) root2), x, y.
  split; [exact T1|]. split; [rewrite X1, Z.add_0_l; exact T2|].
  assert (root1 + 1 = root2 \/ root1 = root2) as Hr2 by (destruct C2 as [C|C]; lia).
  assert (root2 <= next) as Hrn2 by (destruct C2 as [C|C]; lia).
  assert (forall i, 0 <= i < root -> par2 i = par i) as Pold.
  { intros i Hi. destruct C2 as [(_ & _ & _ & _ & ->)|(_ & _ & _ & _ & ->)];
      destruct C1 as [(_ & _ & _ & _ & ->)|(_ & _ & _ & _ & ->)]; rewrite ?upd_other by lia; reflexivity. }
  assert (forall i, root <= i < root2 -> par2 i = next) as Pnew.
  { intros i Hi. destruct C2 as [(E2 & _ & _ & _ & ->)|(E2 & _ & _ & _ & ->)];
      destruct C1 as [(E1 & _ & _ & _ & ->)|(E1 & _ & _ & _ & ->)]; unfold upd;
      repeat match goal with |- context [?a =? ?b] => destruct (Z.eqb_spec a b) end; lia. }
  destruct H2 as (HA1 & HA2 & HA3).
  assert (forall i, root <= i < root2 -> (w i = x \/ w i = y)) as Wtaken.
  { intros i Hi. destruct C1 as [(E1 & _ & _ & -> & _)|(E1 & _ & _ & _ & _)]; destruct C2 as [(E2 & _ & _ & -> & _)|(E2 & _ & _ & _ & _)];
      try lia; assert (i = root \/ i = root1) as [K|K] by lia; subst i;
      try (left; f_equal; lia); try (right; f_equal; lia); lia. }
  assert (forall k, 0 <= k < leaf2 -> f k <= y) as LU2.
  { intros k Hk. destruct (Z_lt_le_dec k leaf) as [K|K]; [specialize (HLU k ltac:(lia)); lia|].
    destruct C1 as [(E1 & L1' & _ & _ & _)|(E1 & L1' & _ & Ex & _)]; destruct C2 as [(E2 & L2' & _ & _ & _)|(E2 & L2' & _ & Ey & _)]; try lia.
    - assert (k = leaf1) as -> by lia. lia.
    - assert (k = leaf) as -> by lia. lia.
    - assert (k = leaf \/ k = leaf1) as [-> | ->] by lia; lia. }
  assert (leaf <= leaf2) as LL2 by (destruct C1 as [C1'|C1']; destruct C2 as [C2'|C2']; lia).
  refine (conj _ (conj (upd_same _ _ _) (conj _ (conj L2 (conj _ (conj _ Hrn2)))))).
  2:{ intros i Hi. apply upd_other. lia. }
  2:{ unfold items. destruct C1 as [(E1 & -> & Q1 & -> & _)|(E1 & -> & Q1 & -> & _)]; subst root1;
        destruct C2 as [(-> & -> & Q2 & -> & _)|(-> & -> & Q2 & -> & _)].
      - rewrite (rlist_cons w root next), (rlist_cons w (root + 1) next) by lia. reflexivity.
      - rewrite (rlist_cons w root next), (rlist_cons f leaf n) by lia. cbn [app]. apply perm_skip. symmetry. apply Permutation_middle.
      - rewrite (rlist_cons w root next), (rlist_cons f leaf n) by lia. cbn [app]. rewrite perm_swap. apply perm_skip. symmetry. apply Permutation_middle.
      - rewrite (rlist_cons f leaf n), (rlist_cons f (leaf + 1) n) by lia.
        rewrite <- Permutation_middle. apply perm_skip. symmetry. apply Permutation_middle. }
  2:{ unfold items. apply Forall_app. split; apply rlist_Forall; intros i Hi; [apply (sh_in _ _ _ _ _ _ S2)|apply (sh_leaf _ _ _ _ _ _ S2)]; lia. }
  constructor.
  - lia.
  - destruct C2 as [C|C]; lia.
  - destruct C2 as [C|C]; lia.
  - split; [exact HA1|]. split; [|exact HA3]. intros i Hi. unfold upd.
    destruct (Z.eqb_spec i next) as [->|]; [exact X2|]. apply HA2. lia.
  - destruct S2. constructor.
    + intros i Hi. specialize (sh_par0 i Hi). lia.
    + assumption.
    + assumption.
    + intros i Hi _. unfold upd. replace (i =? next) with false by lia.
      destruct (Z.eqb_spec (par2 i) next).
      * specialize (sh_used0 i Hi). lia.
      * apply sh_up0; [lia|]. specialize (sh_par0 i Hi). lia.
    + intros i j Hi Hj. unfold upd.
      destruct (Z.eqb_spec i next), (Z.eqb_spec j next); try lia.
      * assert (w i <= w (next - 1)) by (apply sh_w1; lia). lia.
      * apply sh_w1; lia.
    + intros i Hi. unfold upd. destruct (Z.eqb_spec i next); [|apply sh_w2; lia].
      lia.
    + intros i Hi Hpi _. unfold upd. replace (i =? next) with false by lia.
      assert (i < root) as Hir.
      { destruct (Z_lt_le_dec i root); [assumption|]. rewrite (Pnew i) in Hpi by lia. lia. }
      pose proof (sh_used _ _ _ _ _ _ HS i ltac:(lia)) as U.
      destruct (Z.eqb_spec (par2 (par2 i)) next); [lia|].
      apply sh_grand0; [lia|lia|]. specialize (sh_par0 (par2 i)). specialize (sh_par0 ltac:(pose proof (sh_par _ _ _ _ _ _ HS i); rewrite Pold by lia; rewrite Pold in Hpi by lia; lia)). lia.
    + intros i Hi. unfold upd. replace (i =? next) with false by lia. apply sh_used0; lia.
    + intros i Hi. unfold upd. destruct (Z.eqb_spec i next); [lia|]. apply sh_in0; lia.
    + assumption.
  - intros i Hi. destruct S2. specialize (sh_par0 i Hi). lia.
  - lia.
  - replace (next + 1 - 1) with next by lia. rewrite upd_same. lia.
  - rewrite rsum_snoc by lia. rewrite upd_same.
    rewrite (rsum_ext (upd w next (x + y)) w) by (intros; apply upd_other; lia). lia.
  - apply upd_same.
  - intros t Ht. unfold upd at 1 2 3 5 6. destruct (Z.eqb_spec t (next + 1)) as [->|].
    + split; [lia|]. split; [destruct C2 as [C|C]; lia|]. rewrite rsum_snoc by lia. rewrite upd_same.
      rewrite (rsum_ext (upd w next (x + y)) w) by (intros; apply upd_other; lia).
      replace (2 * (next + 1) - root2) with leaf2 by (destruct C2 as [C|C]; lia). lia.
    + destruct (HLEV t ltac:(lia)) as (V1 & V2 & V3). split; [lia|]. split; [lia|].
      rewrite (rsum_ext (upd w next (x + y)) w) by (intros; apply upd_other; lia). exact V3.
  - intros t i Ht Hi. unfold upd. destruct (Z.eqb_spec t (next + 1)) as [->|].
    + split; [intros _|lia]. destruct S2. specialize (sh_par0 i ltac:(lia)). lia.
    + destruct (HLEV t ltac:(lia)) as (V1 & _). destruct (Z_lt_le_dec i root) as [K|K].
      * rewrite Pold by lia. apply HWH; lia.
      * rewrite Pnew by lia. lia.
  - intros i Hi Hpi. unfold upd. replace (i =? next) with false by lia.
    assert (i < root) as Hir.
    { destruct (Z_lt_le_dec i root); [assumption|]. rewrite (Pnew i) in Hpi by lia. lia. }
    pose proof (sh_used _ _ _ _ _ _ HS i ltac:(lia)) as U. replace (par2 i =? next) with false by lia.
    destruct (Z_lt_le_dec (par2 i) root) as [K|K].
    + rewrite Pold in * by lia. pose proof (sh_par _ _ _ _ _ _ HS i ltac:(lia)).
      rewrite (Pold (par i)) by lia. specialize (HP (par i) ltac:(lia)). replace (par (par i) =? next) with false by lia. apply HFIB; lia.
    + rewrite (Pnew (par2 i)) by lia. rewrite Z.eqb_refl. destruct (Wtaken (par2 i) ltac:(lia)) as [-> | ->]; lia.
  - exact LU2.
  - intros t k Ht Hk. unfold upd in *. destruct (Z.eqb_spec (t + 1) (next + 1)) as [E|E].
    + assert (t = next) as -> by lia. rewrite Z.eqb_refl. split; [|lia]. specialize (LU2 k). assert (2 * (next + 1) - root2 = leaf2) by (destruct C2 as [C|C]; lia).
      specialize (LU2 ltac:(lia)). lia.
    + replace (t =? next) with false by lia. specialize (HLF t k ltac:(lia) Hk). destruct HLF as [V1 V2]. split; [assumption|]. intros Ht2.
      destruct (HLEV (t + 1) ltac:(lia)) as (_ & V3 & _). destruct (Z_lt_le_dec t root) as [K|K].
      * rewrite Pold by lia. specialize (HP t ltac:(lia)). replace (par t =? next) with false by lia. apply V2. lia.
      * rewrite Pnew by lia. rewrite Z.eqb_refl. specialize (HLU k ltac:(lia)). destruct (Wtaken t ltac:(lia)) as [-> | ->]; lia.
Qed.

Lemma merge_loop_ok turns : forall A par w root next leaf m rt,
  1 <= next <= n - 1 -> n - 1 - next <= Z.of_nat turns -> merged A par w root next leaf m rt ->
  exists A' par' w' m' rt',
    merge_loop turns n next (A, root, leaf) = Ok A' /\ merged A' par' w' (n - 2) (n - 1) n m' rt' /\
    (forall i, i < next -> w' i = w i) /\ merges (items w root next leaf) (rlist w' next (n - 1)).
Proof.
  induction turns as [|turns IH]; intros A par w root next leaf m rt Hn Ht HM.
  - assert (next = n - 1) as -> by lia. cbn [merge_loop]. rewrite Z.ltb_irrefl. cbn [fst].
    assert (root = n - 2 /\ leaf = n) as [-> ->] by (destruct HM; lia).
    exists A, par, w, m, rt. split; [reflexivity|]. split; [exact HM|]. split; [reflexivity|]. rewrite (rlist_nil w) by lia. constructor.
  - cbn [merge_loop]. destruct (Z.ltb_spec next (n - 1)) as [Hlt|Hge].
    + destruct (merge_step A par w root next leaf m rt) as
        (A1 & root1 & leaf1 & A2 & root2 & leaf2 & par2 & w2 & m2 & rt2 & x & y & T1 & T2 & HM2 & W2 & W2' & XY & PM & FM & R2); [lia|assumption|].
      rewrite T1. cbn [obind fst]. rewrite key_at_ok by lia. cbn [obind]. rewrite T2. cbn [obind].
      destruct (IH A2 par2 w2 root2 (next + 1) leaf2 m2 rt2) as (A' & par' & w' & m' & rt' & E' & M' & W' & MG); [lia|lia|assumption|].
      exists A', par', w', m', rt'. split; [exact E'|]. split; [exact M'|]. split; [intros i Hi; rewrite W' by lia; apply W2'; lia|].
      rewrite (rlist_cons w') by lia. rewrite W', W2 by lia. eapply merges_cons; [exact PM|exact XY|exact FM|].
      eapply merges_perm; [|exact MG]. unfold items.
      rewrite (rlist_app w2 root2 next (next + 1)) by lia. rewrite (rlist_cons w2 next), (rlist_nil w2 (next + 1)) by lia. rewrite W2.
      rewrite (rlist_ext w2 w) by (intros; apply W2'; lia). rewrite <- app_assoc. cbn [app]. symmetry. apply Permutation_middle.
    + assert (next = n - 1) as -> by lia. cbn [fst].
      assert (root = n - 2 /\ leaf = n) as [-> ->] by (destruct HM; lia).
      exists A, par, w, m, rt. split; [reflexivity|]. split; [exact HM|]. split; [reflexivity|]. rewrite (rlist_nil w) by lia. constructor.
Qed.
End Merge.

Section Depths.
Context (n : Z) (par : Z -> Z).
Hypothesis n_ge : 2 <= n <= 65536.
Hypothesis par_up : forall i, 0 <= i < n - 2 -> i < par i <= n - 2.
Hypothesis par_mono : forall i j, 0 <= i <= j -> j < n - 2 -> par i <= par j.
Hypothesis par_two : forall i, 0 <= i -> i + 2 < n - 2 -> par i < par (i + 2).

Lemma depth_loop_ok turns : forall next A,
  -1 <= next <= n - 3 -> next + 1 <= Z.of_nat turns ->
  (forall i, 0 <= i <= next -> arr_get 0 A i = par i) ->
  (forall i, 0 <= i -> next < i < n - 2 -> arr_get 0 A i = arr_get 0 A (par i) + 1) ->
  arr_get 0 A (n - 2) = 0 ->
  (forall i, 0 <= i -> next < i <= n - 2 -> 0 <= arr_get 0 A i <= n - 2 - i) ->
  exists A', depth_loop turns n next A = Ok A' /\
    arr_get 0 A' (n - 2) = 0 /\
    (forall i, 0 <= i < n - 2 -> arr_get 0 A' i = arr_get 0 A' (par i) + 1) /\
    (forall i, 0 <= i <= n - 2 -> 0 <= arr_get 0 A' i <= n - 2 - i).
Proof.
  induction turns as [|turns IH]; intros next A Hn Ht H1 H2 H3 H4; cbn [depth_loop].
  - assert (next = -1) as -> by lia. change (-1 >=? 0) with false. cbn match.
    exists A. repeat split; try assumption; intros; try (apply H2; lia); apply H4; lia.
  - destruct (Z.geb_spec next 0) as [Hge|Hlt].
    + rewrite key_at_ok by lia. cbn [obind]. rewrite (H1 next) by lia.
      pose proof (par_up next ltac:(lia)) as Hp. rewrite key_at_ok by lia. cbn [obind].
      rewrite key_put_ok by lia. cbn [obind]. pose proof (H4 (par next) ltac:(lia) ltac:(lia)) as Hd.
      rewrite u16_small by lia.
      apply IH; try lia.
      * intros i Hi. rewrite arr_get_other by lia. apply H1. lia.
      * intros i Hi Hi2. destruct (Z.eq_dec i next) as [->|].
        -- rewrite arr_get_same, arr_get_other by lia. reflexivity.
        -- pose proof (par_up i ltac:(lia)). rewrite !arr_get_other by lia. apply H2; lia.
      * rewrite arr_get_other by lia. assumption.
      * intros i Hi Hi2. destruct (Z.eq_dec i next) as [->|].
        -- rewrite arr_get_same. lia.
        -- rewrite arr_get_other by lia. apply H4; lia.
    + assert (next = -1) as -> by lia.
      exists A. repeat split; try assumption; intros; try (apply H2; lia); apply H4; lia.
Qed.

Context (dep : Z -> Z).
Hypothesis dep_root : dep (n - 2) = 0.
Hypothesis dep_par : forall i, 0 <= i < n - 2 -> dep i = dep (par i) + 1.

Lemma down_ind (P : Z -> Prop) :
  (forall i, 0 <= i <= n - 2 -> (forall j, i < j <= n - 2 -> P j) -> P i) ->
  forall i, 0 <= i <= n - 2 -> P i.
Proof.
  intros H. assert (forall k i, 0 <= i <= n - 2 -> n - 2 - i < Z.of_nat k -> P i) as K.
  { induction k as [|k IH]; intros i Hi Hk; [lia|]. apply H; [assumption|]. intros j Hj. apply IH; lia. }
  intros i Hi. apply (K (Z.to_nat (n - 1 - i))); lia.
Qed.
Lemma dep_nonneg i : 0 <= i <= n - 2 -> 0 <= dep i.
Proof.
  revert i. apply (down_ind (fun i => 0 <= dep i)). intros i Hi IH.
  destruct (Z.eq_dec i (n - 2)) as [->|]; [lia|].
  rewrite dep_par by lia. pose proof (par_up i ltac:(lia)). specialize (IH (par i)). lia.
Qed.
Lemma dep_pos i : 0 <= i < n - 2 -> 1 <= dep i.
Proof. intros. rewrite dep_par by lia. pose proof (par_up i H). pose proof (dep_nonneg (par i)). lia. Qed.
Lemma dep_anti i j : 0 <= i <= j -> j <= n - 2 -> dep j <= dep i.
Proof.
  intros Hi Hj. assert (0 <= i <= n - 2) as Hi0 by lia. revert j Hi Hj.
  refine (down_ind (fun i => forall j, 0 <= i <= j -> j <= n - 2 -> dep j <= dep i) _ i Hi0).
  clear i Hi0. intros i Hi IH j Hj Hj2. destruct (Z.eq_dec i j) as [->|]; [lia|].
  destruct (Z.eq_dec j (n - 2)) as [->|]; [rewrite dep_root; apply dep_nonneg; lia|].
  rewrite (dep_par i), (dep_par j) by lia.
  pose proof (par_up i ltac:(lia)). pose proof (par_up j ltac:(lia)). pose proof (par_mono i j ltac:(lia) ltac:(lia)).
  specialize (IH (par i) ltac:(lia) (par j)). lia.
Qed.

(** depths grow slowly because weights double every two levels *)
Lemma dep_bound w F :
  (forall i, 0 <= i <= n - 2 -> 2 <= w i) ->
  (forall i, 0 <= i < n - 2 -> par i < n - 2 -> 2 * w i <= w (par (par i))) ->
  (forall i, 0 <= i <= n - 2 -> w i <= w (n - 2)) ->
  w (n - 2) = F -> F <= 65535 ->
  forall i, 0 <= i <= n - 2 -> dep i <= 29.
Proof.
  intros H2 Hg Hmax HF HF2.
  assert (forall i, 0 <= i <= n - 2 -> w i * 2 ^ (dep i / 2) <= F) as K.
  { apply (down_ind (fun i => w i * 2 ^ (dep i / 2) <= F)). intros i Hi IH.
    destruct (Z.eq_dec i (n - 2)) as [->|].
    { rewrite dep_root. change (2 ^ (0 / 2)) with 1. lia. }
    rewrite (dep_par i) by lia. pose proof (par_up i ltac:(lia)) as Hp.
    destruct (Z.eq_dec (par i) (n - 2)) as [E|].
    { rewrite E, dep_root. change (2 ^ ((0 + 1) / 2)) with 1. specialize (Hmax i). lia. }
    rewrite (dep_par (par i)) by lia. pose proof (par_up (par i) ltac:(lia)) as Hp2.
    specialize (IH (par (par i)) ltac:(lia)). specialize (Hg i ltac:(lia) ltac:(lia)).
    pose proof (dep_nonneg (par (par i)) ltac:(lia)) as D0.
    replace (dep (par (par i)) + 1 + 1) with (dep (par (par i)) + 1 * 2) by lia.
    rewrite Z.div_add by lia.
    assert (0 <= dep (par (par i)) / 2) by (apply Z.div_pos; lia).
    rewrite Z.pow_add_r by lia. change (2 ^ 1) with 2.
    assert (0 < 2 ^ (dep (par (par i)) / 2)) by (apply pow2_pos; assumption). nia. }
  intros i Hi. specialize (K i Hi). specialize (H2 i Hi). pose proof (dep_nonneg i Hi) as D0.
  destruct (Z_le_gt_dec (dep i) 29) as [|G]; [assumption|exfalso].
  assert (15 <= dep i / 2) by (apply Z.div_le_lower_bound; lia).
  assert (2 ^ 15 <= 2 ^ (dep i / 2)) by (apply Z.pow_le_mono_r; lia).
  change (2 ^ 15) with 32768 in *. nia.
Qed.

Lemma par_spread k i : 0 <= i -> i + 2 * Z.of_nat k < n - 2 -> par i + Z.of_nat k <= par (i + 2 * Z.of_nat k).
Proof.
  induction k as [|k IH]; intros Hi Hk.
  - replace (i + 2 * Z.of_nat 0) with i by lia. lia.
  - specialize (IH Hi ltac:(lia)). pose proof (par_two (i + 2 * Z.of_nat k) ltac:(lia) ltac:(lia)) as P.
    replace (i + 2 * Z.of_nat (S k)) with (i + 2 * Z.of_nat k + 2) by lia. lia.
Qed.

(** 934 *)
Lemma count_used_ok turns : forall A root used dpth,
  -1 <= root <= n - 2 -> root + 1 <= Z.of_nat turns ->
  (forall i, 0 <= i <= root -> arr_get 0 A i = dep i) ->
  (forall i, 0 <= i <= root -> dpth <= dep i) ->
  exists root', count_used turns n A dpth root used = Ok (root', used + (root - root')) /\
    -1 <= root' <= root /\ (forall i, root' < i <= root -> dep i = dpth) /\
    (forall i, 0 <= i <= root' -> dpth < dep i).
Proof.
  induction turns as [|turns IH]; intros A root used dpth Hr Ht HA Hd; cbn [count_used].
  - assert (root = -1) as -> by lia. change (-1 >=? 0) with false. cbn match.
    exists (-1). split; [f_equal; f_equal; lia|]. split; [lia|]. split; intros; lia.
  - destruct (Z.geb_spec root 0) as [Hge|Hlt].
    + rewrite key_at_ok by lia. cbn [obind]. rewrite HA by lia.
      destruct (Z.eqb_spec (dep root) dpth) as [E|E].
      * destruct (IH A (root - 1) (used + 1) dpth) as (root' & R & H1 & H2 & H3); try lia.
        { intros; apply HA; lia. } { intros; apply Hd; lia. }
        exists root'. split; [rewrite R; f_equal; f_equal; lia|]. split; [lia|]. split; [|exact H3].
        intros i Hi. destruct (Z.eq_dec i root) as [->|]; [assumption|]. apply H2. lia.
      * exists root. split; [f_equal; f_equal; lia|]. split; [lia|]. split; [intros; lia|].
        intros i Hi. specialize (Hd root ltac:(lia)). pose proof (dep_anti i root ltac:(lia) ltac:(lia)). lia.
    + assert (root = -1) as -> by lia.
      exists (-1). split; [f_equal; f_equal; lia|]. split; [lia|]. split; intros; lia.
Qed.

Definition from (A : arr) (next : Z) : list Z := arr_to_keys (Z.to_nat (n - 1 - next)) (next + 1) A.
Lemma arr_to_keys_set k : forall i A j x, 0 <= j < i -> arr_to_keys k i (arr_set A j x) = arr_to_keys k i A.
Proof.
  induction k as [|k IH]; intros i A j x H; cbn [arr_to_keys]; [reflexivity|].
  rewrite arr_get_other by lia. f_equal. apply IH. lia.
Qed.
Lemma from_set A next x : 0 <= next <= n - 1 -> from (arr_set A next x) (next - 1) = x :: from A next.
Proof.
  intros. unfold from. replace (Z.to_nat (n - 1 - (next - 1))) with (S (Z.to_nat (n - 1 - next))) by lia.
  cbn [arr_to_keys]. replace (next - 1 + 1) with next by lia. rewrite arr_get_same.
  f_equal. apply arr_to_keys_set. lia.
Qed.
(** 935 *)
Lemma set_leaves_ok turns : forall A dpth avbl used next,
  0 <= dpth < 65536 -> used <= avbl -> avbl - used <= Z.of_nat turns ->
  avbl - used - 1 <= next <= n - 1 ->
  exists A', set_leaves turns n A dpth avbl used next = Ok (A', next - (avbl - used)) /\
    from A' (next - (avbl - used)) = repeat dpth (Z.to_nat (avbl - used)) ++ from A next /\
    (forall i, 0 <= i <= next - (avbl - used) -> arr_get 0 A' i = arr_get 0 A i).
Proof.
  induction turns as [|turns IH]; intros A dpth avbl used next Hd Hu Ht Hn; cbn [set_leaves].
  - assert (avbl = used) as -> by lia. rewrite Z.sub_diag, Z.sub_0_r.
    replace (used >? used) with false by lia. exists A. repeat split.
  - destruct (Z.gtb_spec avbl used) as [Hgt|Hle].
    + rewrite key_put_ok by lia. cbn [obind]. rewrite u16_small by lia.
      destruct (IH (arr_set A next dpth) dpth (avbl - 1) used (next - 1)) as (A' & R & Hf & Ho); try lia.
      exists A'. replace (next - 1 - (avbl - 1 - used)) with (next - (avbl - used)) in * by lia.
      split; [exact R|]. split.
      * rewrite Hf, from_set by lia.
        replace (Z.to_nat (avbl - used)) with (S (Z.to_nat (avbl - 1 - used))) by lia.
        cbn [repeat]. rewrite repeat_cons. rewrite <- app_assoc. reflexivity.
      * intros i Hi. rewrite Ho by lia. apply arr_get_other; lia.
    + assert (avbl = used) as -> by lia. rewrite Z.sub_diag, Z.sub_0_r. exists A. repeat split.
Qed.

Definition weight32 (l : list Z) : Z := zsum (map (fun x => 2 ^ (32 - x)) l).
Lemma zsum_app a b : zsum (a ++ b) = zsum a + zsum b.
Proof. induction a; cbn [zsum app]; lia. Qed.
Lemma weight32_app a b : weight32 (a ++ b) = weight32 a + weight32 b.
Proof. unfold weight32. now rewrite map_app, zsum_app. Qed.
Lemma weight32_repeat x k : weight32 (repeat x k) = Z.of_nat k * 2 ^ (32 - x).
Proof. induction k as [|k IH]; [reflexivity|]. cbn [repeat]. unfold weight32 in *. cbn [map zsum]. rewrite IH. lia. Qed.

Hypothesis dep_29 : forall i, 0 <= i <= n - 2 -> dep i <= 29.

(** the weights of the nodes ([w]) and of the leaves ([f]) *)
Context (w f rt : Z -> Z) (F : Z).
Hypothesis lvl : forall t, 1 <= t <= n - 1 -> 0 <= rt t /\ rsum w (rt t) t + rsum f (2 * t - rt t) n = F.
Hypothesis when : forall t i, 1 <= t <= n - 1 -> 0 <= i < n - 2 -> (i < rt t <-> par i < t).
Hypothesis grow : forall i, 0 <= i < n - 2 -> par i < n - 2 -> w i + w (par i) <= w (par (par i)).
Hypothesis lgrow : forall t k, 0 <= t < n - 1 -> 0 <= k < 2 * (t + 1) - rt (t + 1) ->
  f k <= w t /\ (t < n - 2 -> f k + w t <= w (par t)).
Hypothesis w_top : w (n - 2) = F.
Hypothesis f_all : rsum f 0 n = F.
Hypothesis f_nn : forall i, 0 <= i < n -> 0 <= f i.
Lemma fib_up : forall i, 0 <= i <= n - 2 -> forall x, 0 <= x <= w i -> (i < n - 2 -> x + w i <= w (par i)) ->
  fib (S (Z.to_nat (dep i))) * w i + fib (Z.to_nat (dep i)) * x <= F.
Proof.
  apply (down_ind (fun i => forall x, 0 <= x <= w i -> (i < n - 2 -> x + w i <= w (par i)) ->
    fib (S (Z.to_nat (dep i))) * w i + fib (Z.to_nat (dep i)) * x <= F)). intros i Hi IH x Hx HG.
  destruct (Z.eq_dec i (n - 2)) as [->|].
  { rewrite dep_root, w_top. change (fib (Z.to_nat 0)) with 0. change (fib (S (Z.to_nat 0))) with 1. lia. }
  specialize (HG ltac:(lia)). pose proof (par_up i ltac:(lia)) as Hp. rewrite dep_par by lia.
  specialize (IH (par i) ltac:(lia) (w i) ltac:(lia)). specialize (IH ltac:(intros; apply grow; lia)).
  pose proof (dep_nonneg (par i) ltac:(lia)). replace (Z.to_nat (dep (par i) + 1)) with (S (Z.to_nat (dep (par i)))) by lia.
  rewrite fib_SS. pose proof (fib_nonneg (Z.to_nat (dep (par i)))). nia.
Qed.
Lemma sorted_repeat_app x k l : StronglySorted (fun a b => b <= a) l -> Forall (fun y => y < x) l ->
  StronglySorted (fun a b => b <= a) (repeat x k ++ l).
Proof.
  intros S H. induction k as [|k IH]; cbn [repeat app]; [assumption|]. constructor; [assumption|].
  apply Forall_app. split; [apply Forall_forall; intros y Hy; apply repeat_spec in Hy; lia|].
  eapply Forall_impl; [|exact H]. cbn beta. intros. lia.
Qed.
Lemma dotl_repeat x : forall l, dotl l (repeat x (length l)) = x * zsum l.
Proof. induction l as [|y l IH]; cbn [length repeat dotl zsum]; [lia|]. rewrite IH. lia. Qed.

(** 932-937, from depth 1 on: nodes root+1 .. prev are those at depth dpth-1 *)
Lemma leaf_loop_ok turns : forall A avbl dpth root prev next,
  1 <= dpth -> -1 <= root <= prev -> prev <= n - 2 -> avbl = 2 * (prev - root) -> next = root + avbl ->
  root + 1 + (if avbl >? 0 then 1 else 0) <= Z.of_nat turns -> next <= n - 1 ->
  (forall i, 0 <= i <= root -> arr_get 0 A i = dep i) ->
  (forall i, 0 <= i <= root -> dpth <= dep i) ->
  (forall i, root < i <= prev -> dep i = dpth - 1) ->
  (forall i, prev < i <= n - 2 -> dep i < dpth - 1) ->
  Forall (fun x => 1 <= x <= 30) (from A next) ->
  weight32 (from A next) + avbl * 2 ^ (32 - dpth) = 2 ^ 32 ->
  (prev = -1 \/ rt (prev + 1) = root + 1) -> Forall (fun x => x < dpth) (from A next) -> StronglySorted (fun a b => b <= a) (from A next) ->
  Forall2 (fun a d => a * fib (Z.to_nat d + 1) <= F) (rlist f (next + 1) n) (from A next) ->
  dotl (rlist f (next + 1) n) (from A next) + dpth * rsum f 0 (next + 1) = rsum w (root + 1) (n - 1) ->
  exists A', leaf_loop turns n A avbl dpth root next = Ok A' /\
    Forall (fun x => 1 <= x <= 30) (from A' (-1)) /\ weight32 (from A' (-1)) = 2 ^ 32 /\
    StronglySorted (fun a b => b <= a) (from A' (-1)) /\
    Forall2 (fun a d => a * fib (Z.to_nat d + 1) <= F) (rlist f 0 n) (from A' (-1)) /\
    dotl (rlist f 0 n) (from A' (-1)) = rsum w 0 (n - 1).
Proof.
  induction turns as [|turns IH]; intros A avbl dpth root prev next Hd Hr Hp Ha Hn Ht Hnx HA Hge Hat Hlt HF HW HRT HLT HSS HFB HPC;
    cbn [leaf_loop].
  - destruct (Z.gtb_spec avbl 0) as [Hav|Hav]; [lia|]. assert (root = -1) as -> by lia.
    assert (avbl = 0) as Ea by lia. rewrite Ea in *. replace next with (-1) in * by lia.
    exists A. split; [reflexivity|]. split; [assumption|]. split; [lia|]. split; [assumption|]. change (-1 + 1) with 0 in *. split; [assumption|].
    rewrite (rsum_nil f 0 0) in HPC by lia. lia.
  - destruct (Z.gtb_spec avbl 0) as [Hav|Hav].
    2:{ assert (avbl = 0) as Ea by lia. rewrite Ea in *. assert (prev = root) as -> by lia.
        assert (root = -1) as Er.
        { destruct (Z.eq_dec root (-1)); [assumption|exfalso].
          destruct (Z.eq_dec root (n - 2)) as [E|].
          - specialize (Hge root ltac:(lia)). rewrite E, dep_root in Hge. lia.
          - pose proof (par_up root ltac:(lia)). specialize (Hlt (par root) ltac:(lia)).
            specialize (Hge root ltac:(lia)). rewrite dep_par in Hge by lia. lia. }
        subst root. replace next with (-1) in * by lia.
        exists A. split; [reflexivity|]. split; [assumption|]. split; [lia|]. split; [assumption|]. change (-1 + 1) with 0 in *. split; [assumption|].
        rewrite (rsum_nil f 0 0) in HPC by lia. lia. }
    assert (dpth <= 30) as Hd30.
    { specialize (Hat prev ltac:(lia)). specialize (dep_29 prev ltac:(lia)). lia. }
    destruct (count_used_ok (S (Z.to_nat n)) A root 0 dpth) as (root' & R & Hr' & Heq & Hgt); try assumption; try lia.
    rewrite R. cbn [obind fst snd]. rewrite Z.add_0_l.
    assert (root - root' <= avbl) as Hused.
    { destruct (Z_le_gt_dec (root - root') avbl) as [|G]; [assumption|exfalso].
      set (k := Z.to_nat (prev - root)).
      assert (root < n - 2) as Hrn.
      { destruct (Z.eq_dec root (n - 2)) as [E|]; [|lia]. specialize (Hge root ltac:(lia)). rewrite E, dep_root in Hge. lia. }
      pose proof (par_spread k (root' + 1) ltac:(lia) ltac:(lia)) as PS.
      assert (forall i, root' < i <= root -> root < par i <= prev) as PR.
      { intros i Hi. pose proof (par_up i ltac:(lia)) as Hpu. specialize (Heq i Hi). rewrite dep_par in Heq by lia.
        split.
        - destruct (Z_lt_le_dec root (par i)); [assumption|]. specialize (Hge (par i) ltac:(lia)). lia.
        - destruct (Z_le_gt_dec (par i) prev); [assumption|]. specialize (Hlt (par i) ltac:(lia)). lia. }
      pose proof (PR (root' + 1) ltac:(lia)). pose proof (PR (root' + 1 + 2 * Z.of_nat k) ltac:(lia)). lia. }
    destruct (set_leaves_ok (S (Z.to_nat n)) A dpth avbl (root - root') next) as (A' & R2 & Hf & Ho); try lia.
    rewrite R2. cbn [obind fst snd].
    assert (root = -1 \/ root' < root) as Hmove.
      { destruct (Z.eq_dec root (-1)); [left; assumption|right].
        destruct (Z_lt_le_dec root' root); [assumption|exfalso].
        assert (dep root = dpth).
        { assert (root < n - 2) as Hrn.
          { destruct (Z.eq_dec root (n - 2)) as [E|]; [|lia]. specialize (Hge root ltac:(lia)). rewrite E, dep_root in Hge. lia. }
          pose proof (par_up root ltac:(lia)) as Hpu. specialize (Hge root ltac:(lia)). rewrite dep_par in * by lia.
          destruct (Z_le_gt_dec (par root) prev) as [L|L].
          - specialize (Hat (par root) ltac:(lia)). lia.
          - specialize (Hlt (par root) ltac:(lia)). lia. }
        specialize (Hgt root ltac:(lia)). lia. }
    set (next' := next - (avbl - (root - root'))) in *.
    assert (root = -1 \/ rt (root + 1) = root' + 1) as HRT'.
    { destruct Hmove as [->|Hlt']; [now left|]. right.
      assert (root < n - 2) as Hrn.
      { destruct (Z.eq_dec root (n - 2)) as [E|]; [|lia]. specialize (Hge root ltac:(lia)). rewrite E, dep_root in Hge. lia. }
      destruct (lvl (root + 1) ltac:(lia)) as [R0 _].
      assert (~ (root' + 1 < rt (root + 1))) as N1.
      { rewrite when by lia. specialize (Heq (root' + 1) ltac:(lia)). rewrite dep_par in Heq by lia. pose proof (par_up (root' + 1) ltac:(lia)).
        intros K. specialize (Hge (par (root' + 1)) ltac:(lia)). lia. }
      assert (root' = -1 \/ root' < rt (root + 1)) as N2; [|lia].
      destruct (Z.eq_dec root' (-1)) as [|]; [now left|right]. apply when; [lia|lia|].
      specialize (Hgt root' ltac:(lia)). rewrite dep_par in Hgt by lia. pose proof (par_up root' ltac:(lia)).
      destruct (Z_lt_le_dec (par root') (root + 1)) as [K|K]; [assumption|exfalso].
      destruct (Z_le_gt_dec (par root') prev) as [L|L]; [specialize (Hat (par root') ltac:(lia)); lia|specialize (Hlt (par root') ltac:(lia)); lia]. }
    assert (rsum f 0 (next' + 1) = rsum w (root' + 1) (root + 1)) as HU.
    { destruct HRT' as [->|HR].
      - assert (root' = -1) by lia. rewrite !rsum_nil by lia. reflexivity.
      - destruct (Z.eq_dec root (-1)) as [->|]; [assert (root' = -1) by lia; rewrite !rsum_nil by lia; reflexivity|].
        destruct (lvl (root + 1) ltac:(lia)) as [_ LV]. rewrite HR in LV. replace (2 * (root + 1) - (root' + 1)) with (next' + 1) in LV by lia.
        rewrite (rsum_app f 0 (next' + 1) n) in f_all by lia. lia. }
    assert (rlist f (next' + 1) n = rlist f (next' + 1) (next + 1) ++ rlist f (next + 1) n) as ER by (apply rlist_app; lia).
    assert (length (rlist f (next' + 1) (next + 1)) = Z.to_nat (avbl - (root - root'))) as LR by (rewrite rlist_length; lia).
    apply (IH A' (2 * (root - root')) (dpth + 1) root' root next'); try lia.
    + destruct Hmove as [->|Hlt'].
      * assert (root' = -1) by lia. subst root'. cbn. lia.
      * destruct (Z.gtb_spec (2 * (root - root')) 0); lia.
    + intros i Hi. rewrite Ho by lia. apply HA. lia.
    + intros i Hi. specialize (Hgt i Hi). lia.
    + intros i Hi. rewrite Heq by lia. lia.
    + intros i Hi. destruct (Z_le_gt_dec i prev) as [L|L].
      * specialize (Hat i ltac:(lia)). lia.
      * specialize (Hlt i ltac:(lia)). lia.
    + rewrite Hf. apply Forall_app. split; [|assumption]. apply Forall_forall. intros x Hx.
      apply repeat_spec in Hx. lia.
    + rewrite Hf, weight32_app, weight32_repeat.
      replace (32 - dpth) with ((32 - (dpth + 1)) + 1) in * by lia. rewrite pow2_S in * by lia. nia.
    + rewrite Hf. apply Forall_app. split; [apply Forall_forall; intros x Hx; apply repeat_spec in Hx; lia|].
      eapply Forall_impl; [|exact HLT]. cbn beta. intros. lia.
    + rewrite Hf. now apply sorted_repeat_app.
    + rewrite Hf, ER. apply Forall2_app; [|assumption]. rewrite <- LR.
      assert (Forall (fun a => a * fib (Z.to_nat dpth + 1) <= F) (rlist f (next' + 1) (next + 1))) as FL.
      { apply rlist_Forall. intros k Hk. destruct (lgrow prev k ltac:(lia) ltac:(lia)) as [G1 G2].
        pose proof (fib_up prev ltac:(lia) (f k) ltac:(specialize (f_nn k ltac:(lia)); lia) G2) as FU. rewrite (Hat prev) in FU by lia.
        replace (Z.to_nat dpth + 1)%nat with (S (S (Z.to_nat (dpth - 1)))) by lia. rewrite fib_SS.
        pose proof (fib_nonneg (Z.to_nat (dpth - 1))). nia. }
      clear - FL. induction FL; cbn [length repeat]; constructor; assumption.
    + rewrite Hf, ER, dotl_app by (rewrite repeat_length; exact LR). rewrite <- LR, dotl_repeat, rlist_sum.
      rewrite (rsum_app f 0 (next' + 1) (next + 1)) in HPC by lia. rewrite (rsum_app w (root' + 1) (root + 1) (n - 1)) by lia. lia.
Qed.
End Depths.


Theorem minimum_redundancy_full n A f F :
  2 <= n <= 65536 ->
  (forall i, 0 <= i < n -> arr_get 0 A i = f i) ->
  (forall i j, 0 <= i <= j -> j < n -> f i <= f j) ->
  (forall i, 0 <= i < n -> 1 <= f i) ->
  rsum f 0 n = F -> F <= 65535 ->
  exists A', minimum_redundancy n A = Ok A' /\
    let l := arr_to_keys (Z.to_nat n) 0 A' in
    Forall (fun x => 1 <= x <= 30) l /\ weight32 l = 2 ^ 32 /\
    StronglySorted (fun a b => b <= a) l /\
    Forall2 (fun a d => a * fib (Z.to_nat d + 1) <= F) (rlist f 0 n) l /\
    exists ws, merges (rlist f 0 n) ws /\ Z.of_nat (length ws) = n - 1 /\ dotl (rlist f 0 n) l = zsum ws.
Proof.
  intros Hn HA Hs Hpos HF HF2. unfold minimum_redundancy.
  replace (n =? 0) with false by lia. replace (n =? 1) with false by lia.
  rewrite !key_at_ok by lia. cbn [obind]. rewrite !HA by lia.
  rewrite key_put_ok by lia. cbn [obind].
  assert (0 <= rsum f 2 n) as S2 by (apply rsum_nonneg; intros; specialize (Hpos i); lia).
  pose proof HF as HFall. rewrite (rsum_cons f 0 n) in HF by lia. rewrite (rsum_cons f (0 + 1) n) in HF by lia.
  change (0 + 1) with 1 in HF. change (1 + 1) with 2 in HF.
  pose proof (Hpos 0 ltac:(lia)). pose proof (Hpos 1 ltac:(lia)). pose proof (Hs 0 1 ltac:(lia) ltac:(lia)).
  rewrite u16_small by lia.
  destruct (merge_loop_ok n f F Hn Hs Hpos HF2 (Z.to_nat n) (arr_set A 0 (f 0 + f 1)) (fun _ => 0)
              (fun _ => f 0 + f 1) 0 1 2 (f 1) (fun _ => 0)) as (A2 & par & w & m & rt & R & HM & W0 & MG); [lia|lia| |].
  { constructor; try lia.
    - repeat split; intros i Hi; [lia| |].
      + assert (i = 0) as -> by lia. apply arr_get_same.
      + rewrite arr_get_other by lia. apply HA. lia.
    - constructor; try (intros; lia). intros i Hi. apply Hs; lia.
    - rewrite rsum_cons, rsum_nil by lia. lia.
    - intros t Ht. assert (t = 1) as -> by lia. split; [lia|]. split; [lia|]. change (2 * 1 - 0) with 2. rewrite (rsum_cons (fun _ => f 0 + f 1)), rsum_nil by lia. lia.
    - intros k Hk. assert (k = 0 \/ k = 1) as [-> | ->] by lia; lia.
    - intros t k Ht Hk. assert (t = 0) as -> by lia. assert (k = 0 \/ k = 1) as [-> | ->] by lia; lia. }
  rewrite R. cbn [obind]. rewrite key_put_ok by lia. cbn [obind]. rewrite u16_small by lia.
  destruct HM as [_ _ _ (HA1 & HA2 & HA3) HS HP Hm HL HT HNOW HLEV HWH HFIB HLU HLF].
  assert (forall i, 0 <= i < n - 2 -> i < par i <= n - 2) as par_up.
  { intros i Hi. pose proof (sh_par _ _ _ _ _ _ _ _ HS i Hi). specialize (HP i Hi). lia. }
  pose proof (sh_mono _ _ _ _ _ _ _ _ HS) as par_mono. pose proof (sh_two _ _ _ _ _ _ _ _ HS) as par_two.
  destruct (depth_loop_ok n par Hn par_up (Z.to_nat n) (n - 3) (arr_set A2 (n - 2) 0)) as (A4 & R4 & D0 & D1 & D2); try lia.
  { intros i Hi. rewrite arr_get_other by lia. apply HA1. lia. }
  { apply arr_get_same. }
  { intros i Hi Hi2. assert (i = n - 2) as -> by lia. rewrite arr_get_same. lia. }
  rewrite R4. cbn [obind].
  set (dep := arr_get 0 A4) in *.
  assert (rsum w (n - 2) (n - 1) = w (n - 2)) as Ew.
  { rewrite rsum_cons, rsum_nil by lia. lia. }
  rewrite (rsum_nil f n n) in HT by lia.
  assert (forall i, 0 <= i <= n - 2 -> dep i <= 29) as D29.
  { apply (dep_bound n par Hn par_up dep D0 D1 w F); try lia.
    - intros i Hi. apply (sh_w0 _ _ _ _ _ _ _ _ HS). lia.
    - intros i Hi Hi2. apply (sh_grand _ _ _ _ _ _ _ _ HS); [lia|lia|].
      pose proof (par_up i Hi). pose proof (par_up (par i)). lia.
    - intros i Hi. apply (sh_w _ _ _ _ _ _ _ _ HS); lia. }
  (* depth 0 *)
  cbn [leaf_loop]. change (1 >? 0) with true. cbn match.
  destruct (count_used_ok n par par_up par_mono dep D0 D1 (S (Z.to_nat n)) A4 (n - 2) 0 0)
    as (root' & Rc & Hr' & Heq & Hgt); try lia.
  { reflexivity. } { intros i Hi. apply (dep_nonneg n par par_up dep D0 D1 i Hi). }
  assert (root' = n - 3) as ->.
  { destruct (Z.eq_dec root' (n - 2)) as [->|].
    - specialize (Hgt (n - 2) ltac:(lia)). lia.
    - destruct (Z.eq_dec root' (n - 3)) as [|]; [assumption|].
      specialize (Heq (n - 3) ltac:(lia)). pose proof (dep_pos n par par_up dep D0 D1 (n - 3)). lia. }
  rewrite Rc. cbn [obind fst snd]. replace (0 + (n - 2 - (n - 3))) with 1 by lia.
  assert (set_leaves (S (Z.to_nat n)) n A4 0 1 1 (n - 1) = Ok (A4, n - 1)) as -> by reflexivity.
  cbn [obind fst snd]. change (2 * 1) with 2. change (0 + 1) with 1.
  destruct (leaf_loop_ok n par Hn par_up par_mono par_two dep D0 D1 D29 w f rt F) with (turns := Z.to_nat n) (A := A4) (avbl := 2) (dpth := 1) (root := n - 3) (prev := n - 2) (next := n - 1)
    as (A' & RL & HFa & HW & HSd & HFb & HCo); try lia.
  - intros t Ht. destruct (HLEV t Ht) as (V1 & _ & V3). split; [lia|exact V3].
  - intros t i Ht Hi. apply HWH; lia.
  - intros i Hi Hp. apply HFIB; lia.
  - intros t k Ht Hk. apply HLF; lia.
  - intros i Hi. specialize (Hpos i Hi). lia.
  - cbn. lia.
  - intros i Hi. reflexivity.
  - intros i Hi. apply (dep_pos n par par_up dep D0 D1 i). lia.
  - intros i Hi. assert (i = n - 2) as -> by lia. lia.
  - unfold from. rewrite Z.sub_diag. constructor.
  - unfold from. rewrite Z.sub_diag. reflexivity.
  - right. replace (n - 2 + 1) with (n - 1) by lia. lia.
  - unfold from. rewrite Z.sub_diag. constructor.
  - unfold from. rewrite Z.sub_diag. constructor.
  - rewrite rlist_nil by lia. unfold from. rewrite Z.sub_diag. constructor.
  - rewrite rlist_nil by lia. unfold from. rewrite Z.sub_diag. cbn [Z.to_nat arr_to_keys dotl].
    replace (n - 1 + 1) with n by lia. replace (n - 3 + 1) with (n - 2) by lia. lia.
  - exists A'. split; [exact RL|]. unfold from in *. replace (n - 1 - -1) with n in * by lia.
    change (-1 + 1) with 0 in *. split; [assumption|]. split; [assumption|]. split; [assumption|]. split; [assumption|].
    exists (rlist w 0 (n - 1)). split; [|split].
    + rewrite (rlist_cons w 0) by lia. rewrite W0 by lia. change (0 + 1) with 1.
      rewrite (rlist_cons f 0), (rlist_cons f (0 + 1)) by lia. change (0 + 1) with 1. change (1 + 1) with 2.
      apply (merges_cons _ (f 0) (f 1) (rlist f 2 n)); [reflexivity|lia| |].
      * apply rlist_Forall. intros i Hi. apply Hs; lia.
      * unfold items in MG. rewrite (rlist_cons _ 0 1), (rlist_nil _ (0 + 1) 1) in MG by lia. exact MG.
    + rewrite rlist_length. lia.
    + rewrite rlist_sum. exact HCo.
Qed.
Theorem minimum_redundancy_ok n A f F :
  2 <= n <= 65536 ->
  (forall i, 0 <= i < n -> arr_get 0 A i = f i) ->
  (forall i j, 0 <= i <= j -> j < n -> f i <= f j) ->
  (forall i, 0 <= i < n -> 1 <= f i) ->
  rsum f 0 n = F -> F <= 65535 ->
  exists A', minimum_redundancy n A = Ok A' /\
    let l := arr_to_keys (Z.to_nat n) 0 A' in
    Forall (fun x => 1 <= x <= 30) l /\ weight32 l = 2 ^ 32.
Proof.
  intros Hn HA Hs Hpos HF HF2. destruct (minimum_redundancy_full n A f F Hn HA Hs Hpos HF HF2) as (A' & E & H1 & H2 & _).
  exists A'. split; [exact E|]. split; assumption.
Qed.
