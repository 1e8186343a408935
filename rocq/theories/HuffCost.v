(** How long Huffman codes can get in total: facts about lists of numbers, used to bound
    the size of a block (src/miniz/miniz.cpp 913-953). *)
From Coq Require Import ZArith List Bool Lia Permutation.
From Verif Require Import Base BaseFacts DeflateSpec BitFacts.
Import ListNotations.
Open Scope Z_scope.

Lemma zs_app a b : zsum (a ++ b) = zsum a + zsum b.
Proof. induction a; cbn [zsum app]; lia. Qed.
Lemma zs_perm a b : Permutation a b -> zsum a = zsum b.
Proof. induction 1; cbn [zsum]; lia. Qed.
Lemma zs_nonneg l : Forall (fun x => 0 <= x) l -> 0 <= zsum l.
Proof. induction 1; cbn [zsum]; lia. Qed.

Lemma skip_skip (l : list Z) : forall a b, skipn a (skipn b l) = skipn (b + a) l.
Proof. induction l as [|x l IH]; intros a b; [now rewrite !skipn_nil|]. destruct b; [reflexivity|]. cbn [skipn Nat.add]. apply IH. Qed.

(** ** Merging the two smallest items again and again *)
(** [merges S ws]: starting with the items [S], the merges make items of weights [ws] *)
Inductive merges : list Z -> list Z -> Prop :=
| merges_nil S : merges S []
| merges_cons S x y R ws : Permutation S (x :: y :: R) -> x <= y -> Forall (fun r => y <= r) R ->
    merges ((x + y) :: R) ws -> merges S ((x + y) :: ws).

(** the smallest item weighs at most what any other does *)
Lemma drop_one x R X Y : Permutation (x :: R) (X ++ Y) -> X <> [] -> Forall (fun r => x <= r) R ->
  exists X' Y', S (length X') = length X /\ x + zsum X' <= zsum X /\ Permutation R (X' ++ Y').
Proof.
  intros P NE F. assert (In x (X ++ Y)) as I by (eapply Permutation_in; [exact P|now left]).
  apply in_app_or in I. destruct I as [I|I]; apply in_split in I; destruct I as (l1 & l2 & ->).
  - exists (l1 ++ l2), Y. split; [rewrite !app_length; cbn [length]; lia|]. split; [rewrite !zs_app; cbn [zsum]; lia|].
    rewrite <- app_assoc. cbn [app] in P. rewrite <- app_assoc in P. cbn [app] in P.
    apply Permutation_cons_app_inv in P. exact P.
  - destruct X as [|u X]; [congruence|]. exists X, (u :: l1 ++ l2). split; [reflexivity|].
    assert (Permutation R (u :: X ++ l1 ++ l2)) as PR.
    { replace ((u :: X) ++ l1 ++ x :: l2) with ((u :: X ++ l1) ++ x :: l2) in P by (cbn; now rewrite <- app_assoc).
      apply Permutation_cons_app_inv in P. cbn [app] in P. now rewrite <- app_assoc in P. }
    split.
    + cbn [zsum]. assert (x <= u); [|lia]. rewrite Forall_forall in F. apply F.
      eapply Permutation_in; [symmetry; exact PR|now left].
    + rewrite PR. apply Permutation_middle.
Qed.
Lemma half ws : forall S X Y, merges S ws -> Permutation S (X ++ Y) -> length X = (2 * length ws)%nat -> zsum ws <= zsum X.
Proof.
  induction ws as [|w ws IH]; intros S X Y M P L.
  - destruct X; [cbn; lia|cbn in L; lia].
  - inversion M as [|? x y R ? PS XY F M']; subst. cbn [length] in L.
    destruct (drop_one x (y :: R) X Y) as (X1 & Y1 & L1 & Z1 & P1).
    { now rewrite <- PS. } { intros ->. cbn in L. lia. }
    { constructor; [assumption|]. eapply Forall_impl; [|exact F]. cbn beta. intros. lia. }
    destruct (drop_one y R X1 Y1) as (X2 & Y2 & L2 & Z2 & P2); [assumption|intros ->; cbn in *; lia|assumption|].
    cbn [zsum]. assert (zsum ws <= zsum X2); [|lia].
    apply (IH ((x + y) :: R) X2 ((x + y) :: Y2)); [assumption| |lia]. rewrite P2. apply Permutation_middle.
Qed.
Lemma merges_split w1 : forall S w2, merges S (w1 ++ w2) -> Forall (fun x => 0 <= x) S ->
  exists S', merges S w1 /\ merges S' w2 /\ (length w1 + length S' = length S)%nat /\ zsum S' = zsum S /\ Forall (fun x => 0 <= x) S'.
Proof.
  induction w1 as [|w w1 IH]; intros S w2 M F.
  - exists S. repeat split; try assumption. constructor.
  - cbn [app] in M. inversion M as [|? x y R ? PS XY FR M']; subst.
    assert (Forall (fun z => 0 <= z) (x :: y :: R)) as F2 by (rewrite <- PS; exact F).
    inversion F2 as [|? ? Fx F3]; subst. inversion F3 as [|? ? Fy F4]; subst.
    destruct (IH ((x + y) :: R) w2 M') as (S' & A & B & C & D & G); [constructor; [lia|assumption]|].
    exists S'. split; [econstructor; eassumption|]. split; [assumption|].
    apply Permutation_length in PS as LS. rewrite LS. cbn [length] in *. split; [lia|]. split; [|assumption].
    rewrite D, (zs_perm _ _ PS). cbn [zsum]. lia.
Qed.
Lemma merges_perm S S' ws : Permutation S S' -> merges S ws -> merges S' ws.
Proof. intros P M. inversion M; subst; [constructor|]. econstructor; try eassumption. etransitivity; [symmetry; exact P|assumption]. Qed.
Lemma merges_prefix S w1 w2 : merges S (w1 ++ w2) -> Forall (fun x => 0 <= x) S -> merges S w1.
Proof. intros M F. destruct (merges_split w1 S w2 M F) as (S' & A & _). exact A. Qed.
Lemma half_part S ws k : merges S ws -> Forall (fun x => 0 <= x) S -> (length ws <= k)%nat -> (2 * k <= length S)%nat -> zsum ws <= zsum S.
Proof.
  intros M F L1 L2. assert (zsum ws <= zsum (firstn (2 * length ws) S)) as H.
  { apply (half ws S _ (skipn (2 * length ws) S) M); [now rewrite firstn_skipn|]. rewrite firstn_length. lia. }
  rewrite <- (firstn_skipn (2 * length ws) S) at 1. rewrite zs_app.
  assert (0 <= zsum (skipn (2 * length ws) S)); [|lia]. apply zs_nonneg.
  rewrite <- (firstn_skipn (2 * length ws) S) in F. apply Forall_app in F. apply F.
Qed.
Lemma cost_log k : forall S ws, merges S ws -> Forall (fun x => 0 <= x) S ->
  (length ws < length S)%nat -> (length S <= 2 ^ k)%nat -> zsum ws <= Z.of_nat k * zsum S.
Proof.
  induction k as [|k IH]; intros S ws M F L1 L2.
  - cbn in L2. destruct ws; [cbn; lia|cbn in L1; lia].
  - pose proof (zs_nonneg S F) as Z0. set (h := (length S / 2)%nat).
    assert (2 * h <= length S /\ length S <= 2 * h + 1)%nat as [H1 H2].
    { unfold h. pose proof (Nat.div_mod (length S) 2 ltac:(lia)). pose proof (Nat.mod_upper_bound (length S) 2 ltac:(lia)). lia. }
    rewrite <- (firstn_skipn h ws) in M |- *. rewrite zs_app.
    destruct (merges_split _ _ _ M F) as (S' & A & B & C & D & G).
    pose proof (half_part S (firstn h ws) h A F) as HP. rewrite firstn_length in HP, C. specialize (HP ltac:(lia) ltac:(lia)).
    assert (zsum (skipn h ws) <= Z.of_nat k * zsum S') as HK; [|rewrite D in HK; lia].
    destruct (Nat.le_gt_cases (length ws) h) as [LE|GT].
    + rewrite skipn_all2 by lia. cbn [zsum]. rewrite D. nia.
    + apply IH; [assumption|assumption|rewrite skipn_length; lia|]. cbn [Nat.pow] in L2. lia.
Qed.
(** 288 items take at most 8 1/4 times their weight *)
Lemma cost_288 S ws : merges S ws -> Forall (fun x => 0 <= x) S ->
  (length ws < length S)%nat -> (length S <= 288)%nat -> 4 * zsum ws <= 33 * zsum S.
Proof.
  intros M F L1 L2. pose proof (zs_nonneg S F) as Z0.
  destruct (Nat.le_gt_cases (length S) 256) as [LE|GT].
  { pose proof (cost_log 8 S ws M F L1 LE). lia. }
  set (r := (length S - 256)%nat).
  rewrite <- (firstn_skipn r ws) in M |- *. rewrite zs_app.
  destruct (merges_split _ _ _ M F) as (S' & A & B & C & D & G). rewrite firstn_length in C.
  assert (zsum (skipn r ws) <= 8 * zsum S') as H8.
  { destruct (Nat.le_gt_cases (length ws) r) as [LE|GT'].
    - rewrite skipn_all2 by lia. cbn [zsum]. rewrite D. lia.
    - apply (cost_log 8 S' _ B G); [rewrite skipn_length; lia|]. change (2 ^ 8)%nat with 256%nat. lia. }
  rewrite D in H8. set (w1 := firstn r ws) in *.
  assert (length w1 <= 32)%nat as LW by (unfold w1; rewrite firstn_length; lia).
  assert (4 * zsum w1 <= zsum S) as H4; [|lia].
  set (q := (2 * length w1)%nat).
  assert (forall i, (i < 4)%nat -> zsum w1 <= zsum (firstn q (skipn (q * i) S))) as H1.
  { intros i Hi. apply (half w1 S _ (firstn (q * i) S ++ skipn q (skipn (q * i) S)) A).
    - rewrite <- (firstn_skipn (q * i) S) at 1. rewrite <- (firstn_skipn q (skipn (q * i) S)) at 1.
      rewrite !app_assoc. apply Permutation_app_tail. apply Permutation_app_comm.
    - rewrite firstn_length, skipn_length. unfold q in *. nia. }
  assert (forall l, Forall (fun x => 0 <= x) l -> forall i, 0 <= zsum (skipn i l)) as SK.
  { intros l Fl i. apply zs_nonneg. rewrite <- (firstn_skipn i l) in Fl. apply Forall_app in Fl. apply Fl. }
  assert (forall i, zsum (skipn (q * i) S) = zsum (firstn q (skipn (q * i) S)) + zsum (skipn (q * (i + 1)) S)) as ST.
  { intros i. rewrite <- (firstn_skipn q (skipn (q * i) S)) at 1. rewrite zs_app. f_equal. f_equal.
    rewrite skip_skip. f_equal. lia. }
  pose proof (ST 0%nat). pose proof (ST 1%nat). pose proof (ST 2%nat). pose proof (ST 3%nat).
  pose proof (H1 0%nat ltac:(lia)). pose proof (H1 1%nat ltac:(lia)). pose proof (H1 2%nat ltac:(lia)). pose proof (H1 3%nat ltac:(lia)).
  pose proof (SK S F (q * (3 + 1))%nat). cbn [Nat.add] in *. rewrite Nat.mul_0_r in *. cbn [skipn] in *. lia.
Qed.

(** ** Weighted sums *)
Fixpoint dotl (a b : list Z) : Z := match a, b with x :: a', y :: b' => x * y + dotl a' b' | _, _ => 0 end.
Lemma dotl_app a1 a2 b1 b2 : length a1 = length b1 -> dotl (a1 ++ a2) (b1 ++ b2) = dotl a1 b1 + dotl a2 b2.
Proof.
  revert b1. induction a1 as [|x a1 IH]; intros [|y b1] L; cbn [length] in L; try lia; cbn [app dotl]; [reflexivity|].
  rewrite IH by lia. lia.
Qed.
Lemma dotl_rev a b : length a = length b -> dotl (rev a) (rev b) = dotl a b.
Proof.
  revert b. induction a as [|x a IH]; intros [|y b] L; cbn [length] in L; try lia; [reflexivity|].
  cbn [rev]. rewrite dotl_app by (rewrite !rev_length; lia). rewrite IH by lia. cbn [dotl]. lia.
Qed.
Lemma dotl_mono a b c : Forall (fun x => 0 <= x) a -> Forall2 (fun x y => x <= y) b c -> dotl a b <= dotl a c.
Proof.
  intros F H. revert a F. induction H as [|x y b c XY H IH]; intros a F; [destruct a; cbn; lia|].
  destruct F as [|z a Hz F]; cbn [dotl]; [lia|]. specialize (IH a F). nia.
Qed.

(** ** Shortening the codes that are too long (947-952) *)
(** one turn of the loop on the list of lengths in ascending order: the last code that is
    shorter than the limit grows by one, and the next one is as long *)
Definition fstep (lim : Z) (L L' : list Z) : Prop :=
  exists P j q, L = P ++ j :: repeat lim (S q) /\ 1 <= j < lim /\ L' = P ++ (j + 1) :: (j + 1) :: repeat lim q.
Inductive fsteps (lim : Z) : nat -> list Z -> list Z -> Prop :=
| fsteps_0 L : fsteps lim 0 L L
| fsteps_S t L L1 L2 : fstep lim L L1 -> fsteps lim t L1 L2 -> fsteps lim (S t) L L2.

Definition kr (L : list Z) : Z := zsum (map (fun x => 2 ^ (15 - x)) L).
Definition ex (L : list Z) : Z := zsum (map (fun x => 2 ^ (15 - x) - 1) L).
Lemma kr_app a b : kr (a ++ b) = kr a + kr b.
Proof. unfold kr. now rewrite map_app, zs_app. Qed.
Lemma kr_cons x l : kr (x :: l) = 2 ^ (15 - x) + kr l.
Proof. reflexivity. Qed.
Lemma ex_cons x l : ex (x :: l) = 2 ^ (15 - x) - 1 + ex l.
Proof. reflexivity. Qed.
Lemma kr_ex l : kr l = ex l + Z.of_nat (length l).
Proof. induction l as [|x l IH]; [reflexivity|]. rewrite kr_cons, ex_cons, IH. cbn [length]. lia. Qed.
Lemma kr_repeat q : kr (repeat 15 q) = Z.of_nat q.
Proof. induction q as [|q IH]; [reflexivity|]. cbn [repeat]. rewrite kr_cons, IH. change (2 ^ (15 - 15)) with 1. lia. Qed.
Lemma ex_nonneg l : Forall (fun x => x <= 15) l -> 0 <= ex l.
Proof.
  induction 1 as [|x l H _ IH]; [cbn; lia|]. rewrite ex_cons. pose proof (pow2_pos (15 - x) ltac:(lia)). lia.
Qed.

Definition finv (L0 : list Z) (t : Z) (L : list Z) : Prop :=
  exists A Z B, L0 = A ++ Z /\ L = A ++ B /\ length B = length Z /\ Forall (fun x => x < 15) A /\ Forall (fun x => x <= 15) B /\
    kr B = kr Z - t /\ ex (tl Z) <= t.
Lemma app_len_split (A B P Q : list Z) : A ++ B = P ++ Q -> (length A <= length P)%nat -> exists P', P = A ++ P' /\ B = P' ++ Q.
Proof.
  revert P. induction A as [|a A IH]; intros P E L; [exists P; split; [reflexivity|exact E]|].
  destruct P as [|p P]; cbn [length] in L; [lia|]. cbn [app] in E. injection E as -> E.
  destruct (IH P E ltac:(lia)) as (P' & -> & ->). exists P'. split; reflexivity.
Qed.
Lemma finv_step L0 t L L' : finv L0 t L -> fstep 15 L L' -> finv L0 (t + 1) L'.
Proof.
  intros (A & Z & B & E0 & EL & LB & FA & FB & KB & ET) (P & j & q & EP & Hj & ->).
  assert (2 ^ (15 - j) = 2 * 2 ^ (15 - (j + 1))) as PJ by (replace (15 - j) with (15 - (j + 1) + 1) by lia; apply pow2_S; lia).
  rewrite EL in EP. destruct (Nat.le_gt_cases (length A) (length P)) as [LE|GT].
  - destruct (app_len_split _ _ _ _ EP LE) as (P' & -> & ->). exists A, Z, (P' ++ (j + 1) :: (j + 1) :: repeat 15 q).
    split; [assumption|]. split; [now rewrite <- app_assoc|]. split.
    { rewrite <- LB. rewrite !app_length. cbn [length]. rewrite !repeat_length. lia. }
    split; [assumption|]. split.
    { apply Forall_app in FB. destruct FB as [F1 F2]. apply Forall_app. split; [assumption|].
      constructor; [lia|]. constructor; [lia|]. apply Forall_forall. intros x Hx. apply repeat_spec in Hx. lia. }
    split; [|lia]. rewrite kr_app, !kr_cons, kr_repeat in *. lia.
  - replace (P ++ j :: repeat 15 (S q)) with ((P ++ [j]) ++ repeat 15 (S q)) in EP by (now rewrite <- app_assoc).
    symmetry in EP. destruct (app_len_split _ _ _ _ EP) as (A2 & -> & E2); [rewrite app_length; cbn [length]; lia|].
    assert (A2 = []) as ->.
    { destruct A2 as [|a A2]; [reflexivity|exfalso]. apply Forall_app in FA. destruct FA as [_ FA]. inversion FA as [|? ? Ha _]; subst.
      assert (In a (repeat 15 (S q))) as I by (rewrite E2; now left). apply repeat_spec in I. lia. }
    cbn [app] in E2. rewrite app_nil_r in *. rewrite <- E2 in *.
    exists P, (j :: Z), ((j + 1) :: (j + 1) :: repeat 15 q).
    split; [now rewrite E0, <- app_assoc|]. split; [reflexivity|]. rewrite repeat_length in LB.
    split; [cbn [length]; rewrite repeat_length; lia|].
    apply Forall_app in FA. split; [apply FA|]. split.
    { constructor; [lia|]. constructor; [lia|]. apply Forall_forall. intros x Hx. apply repeat_spec in Hx. lia. }
    rewrite !kr_cons, !kr_repeat in *. split; [lia|]. cbn [tl]. pose proof (kr_ex Z). lia.
Qed.
Lemma finv_steps t : forall L0 t0 L L', finv L0 t0 L -> fsteps 15 t L L' -> finv L0 (t0 + Z.of_nat t) L'.
Proof.
  induction t as [|t IH]; intros L0 t0 L L' I H; inversion H; subst.
  - replace (t0 + Z.of_nat 0) with t0 by lia. assumption.
  - replace (t0 + Z.of_nat (S t)) with (t0 + 1 + Z.of_nat t) by lia. eapply IH; [|eassumption]. eapply finv_step; eassumption.
Qed.

(** ** What the shortening costs *)
Fixpoint fib (n : nat) : Z := match n with O => 0 | S m => match m with O => 1 | S k => fib m + fib k end end.
Lemma fib_SS n : fib (S (S n)) = fib (S n) + fib n.
Proof. reflexivity. Qed.
Lemma fib_nonneg n : 0 <= fib n /\ 0 <= fib (S n).
Proof. induction n as [|n [H1 H2]]; [cbn; lia|]. split; [assumption|]. rewrite fib_SS. lia. Qed.
Definition w32 (L : list Z) : Z := zsum (map (fun x => 2 ^ (32 - x)) L).
Lemma w32_app a b : w32 (a ++ b) = w32 a + w32 b.
Proof. unfold w32. now rewrite map_app, zs_app. Qed.
Lemma w32_cons x l : w32 (x :: l) = 2 ^ (32 - x) + w32 l.
Proof. reflexivity. Qed.
Lemma w32_short l : Forall (fun x => x <= 15) l -> w32 l = 2 ^ 17 * kr l.
Proof.
  induction 1 as [|x l H _ IH]; [reflexivity|]. rewrite w32_cons, kr_cons, IH.
  replace (32 - x) with (17 + (15 - x)) by lia. rewrite Z.pow_add_r by lia. lia.
Qed.
Lemma w32_clamped l : Forall (fun x => 1 <= x <= 30) l ->
  2 ^ 17 * kr (map (Z.min 15) l) - 2 ^ 17 * Z.of_nat (length l) <= w32 l - Z.of_nat (length l) /\ w32 l <= 2 ^ 17 * kr (map (Z.min 15) l).
Proof.
  induction 1 as [|x l H _ [IH1 IH2]]; [cbn; lia|]. cbn [map]. rewrite w32_cons, kr_cons. cbn [length].
  rewrite Nat2Z.inj_succ. change (2 ^ 17) with 131072 in *.
  destruct (Z_le_gt_dec x 15) as [L|G].
  - rewrite Z.min_r by lia. replace (32 - x) with (17 + (15 - x)) by lia. rewrite Z.pow_add_r by lia. change (2 ^ 17) with 131072.
    pose proof (pow2_pos (15 - x) ltac:(lia)). lia.
  - rewrite Z.min_l by lia. change (2 ^ (15 - 15)) with 1. pose proof (pow2_pos (32 - x) ltac:(lia)).
    assert (2 ^ (32 - x) <= 2 ^ 17) by (apply Z.pow_le_mono_r; lia). change (2 ^ 17) with 131072 in *. lia.
Qed.
Lemma kr_divide l a : a <= 15 -> Forall (fun x => x <= a) l -> (2 ^ (15 - a) | kr l).
Proof.
  intros Ha. induction 1 as [|x l H _ IH]; [apply Z.divide_0_r|]. rewrite kr_cons. apply Z.divide_add_r; [|assumption].
  exists (2 ^ (a - x)). rewrite <- Z.pow_add_r by lia. f_equal. lia.
Qed.
Lemma per_turn z : 7 <= z <= 15 -> 540 * (15 - z) <= (2 ^ (15 - z) - 1) * fib (Z.to_nat z + 1).
Proof.
  intros H. assert (z = 7 \/ z = 8 \/ z = 9 \/ z = 10 \/ z = 11 \/ z = 12 \/ z = 13 \/ z = 14 \/ z = 15) as K by lia.
  destruct K as [-> |[-> |[-> |[-> |[-> |[-> |[-> |[-> | ->]]]]]]]]; vm_compute; intros K; discriminate K.
Qed.
Lemma F2_length {X Y} {R : X -> Y -> Prop} {a b} : Forall2 R a b -> length a = length b.
Proof. induction 1; cbn [length]; congruence. Qed.
Lemma dotl_grow v : forall B Z, length B = length Z -> Forall (fun x => 0 <= x) v -> Forall (fun x => x <= 15) B ->
  dotl v B <= dotl v Z + dotl v (map (fun z => 15 - z) Z).
Proof.
  induction v as [|x v IH]; intros [|b B] [|z Z] L F FB; cbn [length] in L; try lia; cbn [dotl map]; try lia.
  inversion F; subst. inversion FB; subst. specialize (IH B Z ltac:(lia) ltac:(assumption) ltac:(assumption)). nia.
Qed.
Lemma full_turns F v : forall D, 0 <= F -> Forall (fun x => 0 <= x) v -> Forall2 (fun w d => w * fib (Z.to_nat d + 1) <= F) v D ->
  Forall (fun d => 7 <= d) D -> 540 * dotl v (map (fun z => 15 - z) (map (Z.min 15) D)) <= F * ex (map (Z.min 15) D).
Proof.
  intros D HF Fv H F7. induction H as [|w d v D H1 H IH]; [cbn; lia|].
  inversion Fv as [|? ? Hw Fv']; subst. inversion F7 as [|? ? Hd F7']; subst. specialize (IH Fv' F7'). cbn [map dotl]. rewrite ex_cons.
  assert (540 * (w * (15 - Z.min 15 d)) <= F * (2 ^ (15 - Z.min 15 d) - 1)) as K; [|lia].
  destruct (Z_le_gt_dec d 15) as [L|G].
  - rewrite Z.min_r by lia. pose proof (per_turn d ltac:(lia)) as PT. pose proof (pow2_pos (15 - d) ltac:(lia)).
    apply Z.le_trans with (w * ((2 ^ (15 - d) - 1) * fib (Z.to_nat d + 1))); [|nia].
    replace (540 * (w * (15 - d))) with (w * (540 * (15 - d))) by lia. apply Z.mul_le_mono_nonneg_l; lia.
  - rewrite Z.min_l by lia. change (2 ^ (15 - 15)) with 1. lia.
Qed.

Lemma shortening_cost N c F D v L E :
  (forall a, 1 <= a < 15 -> 2 ^ (15 - a) <= N - 1 -> 7 <= a /\ 7560 * (15 - a) <= c * fib (Z.to_nat a + 1)) -> 0 <= c ->
  (forall i j, 0 <= i <= j -> j < Z.of_nat (length D) -> nth (Z.to_nat i) D 0 <= nth (Z.to_nat j) D 0) ->
  Forall (fun x => 1 <= x <= 30) D -> Forall (fun x => 0 <= x) v -> 0 <= F ->
  Forall2 (fun w d => w * fib (Z.to_nat d + 1) <= F) v D ->
  w32 D = 2 ^ 32 -> fsteps 15 E (map (Z.min 15) D) L -> kr L = 2 ^ 15 ->
  Z.of_nat (length D) <= N ->
  7560 * dotl v L <= 7560 * dotl v D + (14 * (N - 1) + c) * F.
Proof.
  intros HC Hc HS HD HV HF HW HK HE HL HN.
  assert (Forall2 Z.le (map (Z.min 15) D) D) as ML.
  { clear. induction D; cbn [map]; constructor; [lia|assumption]. }
  pose proof (dotl_mono v _ _ HV ML) as DM.
  destruct E as [|E].
  { inversion HE; subst. assert (1 <= N) by (destruct D; [cbn in HK; discriminate HK|cbn [length] in HN; lia]). nia. }
  (* the lengths below 15 and the others *)
  assert (exists A0 Z0, map (Z.min 15) D = A0 ++ Z0 /\ Forall (fun x => x < 15) A0 /\ Forall (fun x => x = 15) Z0) as (A0 & Z0 & E0 & FA0 & FZ0).
  { clear - HS. induction D as [|x D IH]; [exists [], []; repeat split; constructor|].
    destruct IH as (A0 & Z0 & E0 & FA & FZ).
    { intros i j Hi Hj. specialize (HS (i + 1) (j + 1) ltac:(lia) ltac:(cbn [length]; lia)).
      replace (Z.to_nat (i + 1)) with (S (Z.to_nat i)) in HS by lia. replace (Z.to_nat (j + 1)) with (S (Z.to_nat j)) in HS by lia. exact HS. }
    destruct (Z_lt_le_dec x 15) as [L|G].
    - exists (x :: A0), Z0. split; [cbn [map app]; rewrite Z.min_r by lia; now f_equal|]. split; [constructor; assumption|assumption].
    - exists [], (15 :: Z0). destruct A0 as [|a A0].
      + split; [cbn [map app] in *; rewrite Z.min_l by lia; now f_equal|]. split; [constructor|constructor; [reflexivity|assumption]].
      + exfalso. inversion FA as [|? ? Ha _]; subst. destruct D as [|y D]; [discriminate E0|]. cbn [map app] in E0. injection E0 as E1 _.
        specialize (HS 0 1 ltac:(lia) ltac:(cbn [length]; lia)). change (Z.to_nat 0) with 0%nat in HS. change (Z.to_nat 1) with 1%nat in HS. cbn [nth] in HS. lia. }
  assert (finv (map (Z.min 15) D) 0 (map (Z.min 15) D)) as I0.
  { exists A0, Z0, Z0. repeat split; try assumption; try lia.
    - eapply Forall_impl; [|exact FZ0]. cbn beta. intros; lia.
    - destruct Z0 as [|z Z0]; [cbn; apply Z.le_refl|]. inversion FZ0 as [|? ? _ F2]; subst. cbn [tl]. clear - F2.
      induction F2 as [|x l -> _ IH]; [cbn; lia|]. rewrite ex_cons. change (2 ^ (15 - 15)) with 1. lia. }
  pose proof (finv_steps _ _ _ _ _ I0 HE) as (A & Z & B & EA & EL & LB & FA & FB & KB & ET).
  rewrite Z.add_0_l in KB, ET. set (t := Z.of_nat (S E)) in *. assert (1 <= t) as T1 by lia.
  (* split D and v the same way *)
  assert (exists DA DZ, D = DA ++ DZ /\ map (Z.min 15) DA = A /\ map (Z.min 15) DZ = Z) as (DA & DZ & ED & EDA & EDZ).
  { clear - EA. apply map_eq_app in EA. destruct EA as (l1 & l2 & -> & <- & <-). exists l1, l2. repeat split. }
  assert (DA = A) as ->.
  { clear - EDA FA. subst A. induction DA as [|x DA IH]; [reflexivity|]. cbn [map] in *. inversion FA as [|? ? Hx F]; subst.
    rewrite <- IH by assumption. f_equal. lia. }
  subst D. apply Forall_app in HD. destruct HD as [HDA HDZ]. rewrite w32_app in HK.
  apply Forall2_app_inv_r in HW. destruct HW as (vA & vZ & HWA & HWZ & ->). apply Forall_app in HV. destruct HV as [HVA HVZ].
  pose proof (F2_length HWA) as LA. pose proof (F2_length HWZ) as LZ.
  rewrite EL, !dotl_app by (rewrite LA; reflexivity). rewrite map_app, EDA, EDZ, dotl_app in DM by (rewrite LA; reflexivity).
  rewrite dotl_app in DM by (rewrite LA; reflexivity).
  pose proof (dotl_grow vZ B Z LB HVZ FB) as DG.
  assert (dotl vZ Z <= dotl vZ DZ) as DMZ.
  { apply dotl_mono; [assumption|]. rewrite <- EDZ. clear. induction DZ; cbn [map]; constructor; [lia|assumption]. }
  rewrite EL, kr_app in HL.
  assert (7560 * dotl vZ (map (fun z => 15 - z) Z) <= (14 * (N - 1) + c) * F) as PEN; [|lia].
  (* the number of turns *)
  assert (t <= N - 1) as TN.
  { pose proof (w32_clamped _ HDZ) as [WC _]. rewrite EDZ in WC. rewrite (w32_short A) in HK by (eapply Forall_impl; [|exact FA]; cbn beta; intros; lia).
    rewrite app_length in HN. change (2 ^ 17) with 131072 in *. change (2 ^ 15) with 32768 in *. change (2 ^ 32) with 4294967296 in *.
    assert (DZ = [] \/ 1 <= Z.of_nat (length DZ)) as [->|LD] by (destruct DZ; [now left|right; cbn [length]; lia]).
    - cbn [map] in EDZ. subst Z. destruct B; [|discriminate LB]. cbn in KB. lia.
    - lia. }
  destruct DZ as [|da DZ].
  { cbn [map] in EDZ. subst Z. cbn [map]. destruct vZ; cbn [dotl]; nia. }
  destruct vZ as [|va vZ]; [discriminate LZ|]. cbn [map] in EDZ. subst Z.
  inversion HWZ as [|? ? ? ? Hva HWZ']; subst. inversion HVZ as [|? ? Hva0 HVZ']; subst. inversion HDZ as [|? ? Hda HDZ']; subst.
  assert (Forall (fun d => da <= d) DZ) as DAT.
  { apply Forall_forall. intros d Hd. apply (In_nth _ _ 0) in Hd. destruct Hd as (k & Hk & <-).
    specialize (HS (Z.of_nat (length A)) (Z.of_nat (length A + S k))). rewrite !Nat2Z.id in HS. rewrite !app_nth2 in HS by lia.
    rewrite Nat.sub_diag in HS. replace (length A + S k - length A)%nat with (S k) in HS by lia. cbn [nth] in HS. apply HS; [lia|].
    rewrite app_length. cbn [length]. lia. }
  cbn [map dotl tl] in *.
  destruct (Z_lt_le_dec da 15) as [LT|GE].
  2:{ rewrite Z.min_l by lia. assert (dotl vZ (map (fun z => 15 - z) (map (Z.min 15) DZ)) <= 0) as Z0'; [|nia].
      clear - DAT HVZ' GE. revert vZ HVZ'. induction DAT as [|d l Hd _ IH]; intros [|v vZ] F; cbn [map dotl]; try lia.
      inversion F; subst. specialize (IH vZ ltac:(assumption)). rewrite Z.min_l by lia. lia. }
  rewrite Z.min_r in * by lia. rewrite kr_cons in *.
  (* how short the shortest code that grows is *)
  assert (2 ^ (15 - da) <= N - 1) as HA.
  { assert ((2 ^ (15 - da) | kr B)) as DV.
    { replace (kr B) with (2 ^ 15 - kr A) by lia. apply Z.divide_sub_r.
      - exists (2 ^ da). rewrite <- Z.pow_add_r by lia. f_equal. lia.
      - apply kr_divide; [lia|]. apply Forall_forall. intros x Hx. apply (In_nth _ _ 0) in Hx. destruct Hx as (k & Hk & <-).
        specialize (HS (Z.of_nat k) (Z.of_nat (length A))). rewrite !Nat2Z.id in HS. rewrite app_nth1 in HS by lia. rewrite app_nth2 in HS by lia.
        rewrite Nat.sub_diag in HS. cbn [nth] in HS. apply HS; [lia|]. rewrite app_length. cbn [length]. lia. }
    pose proof (pow2_pos (15 - da) ltac:(lia)) as P0.
    rewrite (w32_short A) in HK by (eapply Forall_impl; [|exact FA]; cbn beta; intros; lia). rewrite w32_cons in HK.
    replace (32 - da) with (17 + (15 - da)) in HK by lia. rewrite Z.pow_add_r in HK by lia.
    rewrite app_length in HN. cbn [length] in HN.
    pose proof (kr_ex (map (Z.min 15) DZ)) as KX. rewrite map_length in KX.
    pose proof (w32_clamped _ HDZ') as [WC1 WC2].
    change (2 ^ 17) with 131072 in *. change (2 ^ 15) with 32768 in *. change (2 ^ 32) with 4294967296 in *.
    assert (DZ = [] \/ 1 <= Z.of_nat (length DZ)) as [->|LD] by (destruct DZ; [now left|right; cbn [length]; lia]).
    - change (w32 []) with 0 in *. change (kr (map (Z.min 15) [])) with 0 in *. lia.
    - assert (0 < w32 DZ) as W0.
      { destruct DZ as [|z DZ]; [cbn in LD; lia|]. rewrite w32_cons. inversion HDZ' as [|? ? Hz Hr]; subst.
        pose proof (pow2_pos (32 - z) ltac:(lia)). pose proof (w32_clamped _ Hr) as [WC3 _].
        assert (0 <= w32 DZ); [|lia]. clear - Hr. unfold w32. apply zs_nonneg. apply Forall_forall. intros x Hx. apply in_map_iff in Hx.
        destruct Hx as (y & <- & Hy). apply Z.pow_nonneg. lia. }
      destruct DV as (K & EK). assert (2 ^ (15 - da) < kr B) by lia. assert (2 <= K) by nia. nia. }
  destruct (HC da ltac:(lia) HA) as [H7 HCa].
  pose proof (full_turns F vZ DZ HF HVZ' HWZ') as FT.
  specialize (FT ltac:(eapply Forall_impl; [|exact DAT]; cbn beta; intros; lia)).
  assert (7560 * (va * (15 - da)) <= c * F) as PA.
  { apply Z.le_trans with (c * (va * fib (Z.to_nat da + 1))); [|apply Z.mul_le_mono_nonneg_l; assumption].
    replace (7560 * (va * (15 - da))) with (va * (7560 * (15 - da))) by lia. replace (c * (va * fib (Z.to_nat da + 1))) with (va * (c * fib (Z.to_nat da + 1))) by lia.
    apply Z.mul_le_mono_nonneg_l; assumption. }
  assert (F * ex (map (Z.min 15) DZ) <= F * (N - 1)) by (apply Z.mul_le_mono_nonneg_l; lia). lia.
Qed.
