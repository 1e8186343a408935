(** How many bits the compressor's own Huffman codes (src/miniz/miniz.cpp 902-985) spend:
    at most 9.17 per literal or length symbol and 5.09 per distance symbol, on average. *)
From Coq Require Import ZArith List Bool Lia Permutation Sorted.
From Verif Require Import Base Arr Tinfl Tdefl BaseFacts DeflateSpec BitFacts HuffCost HuffBuild MinRed DeflHuff.
Import ListNotations.
Open Scope Z_scope.

Lemma dotl_update counts : forall sizes s x, length sizes = length counts -> (s < length sizes)%nat ->
  dotl counts (nth_update sizes s x) = dotl counts sizes + nth s counts 0 * (x - nth s sizes 0).
Proof.
  induction counts as [|c counts IH]; intros [|z sizes] s x L H; cbn [length] in *; try lia.
  destruct s as [|s]; cbn [nth_update dotl nth]; [lia|]. rewrite IH by lia. lia.
Qed.
Lemma dotl_zeros counts : dotl counts (map (fun _ => 0) counts) = 0.
Proof. induction counts as [|c t IH]; cbn [map dotl]; lia. Qed.

Definition due (counts : list Z) (rs : list sym_freq) (sizes : list Z) : Prop :=
  Forall (fun x => 0 <= snd x < len counts /\ fst x = at_index counts (snd x) /\ at_index sizes (snd x) = 0) rs.
Lemma give_size_dot counts k : forall size rs sizes rs' sizes', length sizes = length counts ->
  due counts rs sizes -> NoDup (map snd rs) -> give_size k size rs sizes = Ok (rs', sizes') ->
  rs' = skipn k rs /\ length sizes' = length counts /\ due counts rs' sizes' /\ NoDup (map snd rs') /\ (k <= length rs)%nat /\
  dotl counts sizes' = dotl counts sizes + dotl (map fst (firstn k rs)) (repeat size k).
Proof.
  induction k as [|k IH]; intros size rs sizes rs' sizes' L D ND E; cbn [give_size] in E.
  - injection E as <- <-. cbn [skipn firstn map repeat dotl]. repeat split; try assumption; lia.
  - destruct rs as [|[c s] rs]; [discriminate E|]. inversion D as [|? ? (D1 & D2 & D3) D4]; subst. cbn [fst snd] in *.
    cbn [map snd] in ND. inversion ND as [|? ? Nin ND']; subst.
    destruct (IH size rs (nth_update sizes (Z.to_nat s) size) rs' sizes') as (E1 & L1 & D' & N' & K & DT); try assumption.
    { now rewrite nth_update_length. }
    { eapply Forall_impl; [|apply Forall_forall; intros y Hy; exact (conj Hy (proj1 (Forall_forall _ _) D4 y Hy))]. cbn beta.
      intros y (Hy & Y1 & Y2 & Y3). split; [exact Y1|]. split; [exact Y2|]. rewrite at_update by (unfold len in *; lia).
      destruct (Z.eqb_spec s (snd y)) as [->|]; [|exact Y3]. exfalso. apply Nin. apply in_map. exact Hy. }
    cbn [skipn firstn map repeat dotl length fst]. repeat split; try assumption; try lia.
    rewrite DT, dotl_update by (unfold len in *; lia). unfold at_index in *. rewrite D3. lia.
Qed.
Lemma give_sizes_dot counts num turns : forall i rs sizes sizes', length sizes = length counts ->
  due counts rs sizes -> NoDup (map snd rs) -> give_sizes turns i num rs sizes = Ok sizes' ->
  dotl counts sizes' = dotl counts sizes + dotl (map fst rs) (expand turns i num).
Proof.
  induction turns as [|turns IH]; intros i rs sizes sizes' L D ND E; cbn [give_sizes] in E.
  - injection E as <-. cbn [expand]. destruct (map fst rs); cbn [dotl]; lia.
  - set (k := Z.to_nat (at_index num i)) in *. destruct (give_size k i rs sizes) as [[r z]| | |] eqn:G; try discriminate E.
    cbn [obind fst snd] in E.
    destruct (give_size_dot counts k i rs sizes r z L D ND G) as (-> & L1 & D1 & N1 & K & DT).
    rewrite (IH _ _ _ _ L1 D1 N1 E), DT. cbn [expand]. fold k.
    assert (map fst rs = map fst (firstn k rs) ++ map fst (skipn k rs)) as -> by (rewrite <- map_app, firstn_skipn; reflexivity).
    rewrite dotl_app; [lia|]. rewrite map_length, firstn_length, repeat_length. lia.
Qed.

(** a sorted list is the expansion of its histogram *)
Lemma sorted_head i l : StronglySorted Z.le l -> Forall (fun x => i <= x) l ->
  exists l', l = repeat i (Z.to_nat (count_size l i)) ++ l' /\ StronglySorted Z.le l' /\ Forall (fun x => i < x) l'.
Proof.
  induction 1 as [|x l SS IH F]; intros G.
  - exists []. split; [reflexivity|]. split; constructor.
  - inversion G as [|? ? Gx Gl]; subst. rewrite count_size_cons. destruct (Z.eqb_spec i x) as [<-|N].
    + destruct (IH Gl) as (l' & E & S' & F'). exists l'. split; [|split; assumption].
      pose proof (count_size_nonneg l i). replace (Z.to_nat (1 + count_size l i)) with (S (Z.to_nat (count_size l i))) by lia.
      cbn [repeat app]. f_equal. exact E.
    + exists (x :: l). assert (Forall (fun y => i < y) (x :: l)) as FG.
      { constructor; [lia|]. eapply Forall_impl; [|exact F]. cbn beta. intros. lia. }
      split; [|split; [now constructor|exact FG]].
      assert (count_size l i = 0) as ->; [|reflexivity].
      inversion FG as [|? ? _ FG']; subst. clear - FG'. induction FG' as [|y l Hy _ IH]; [reflexivity|].
      rewrite count_size_cons, IH. destruct (Z.eqb_spec i y); lia.
Qed.
Lemma count_size_app a b i : count_size (a ++ b) i = count_size a i + count_size b i.
Proof. induction a as [|x a IH]; [cbn; lia|]. cbn [app]. rewrite !count_size_cons, IH. lia. Qed.
Lemma count_size_repeat x k i : i <> x -> count_size (repeat x k) i = 0.
Proof. intros N. induction k as [|k IH]; [reflexivity|]. cbn [repeat]. rewrite count_size_cons, IH. destruct (Z.eqb_spec i x); lia. Qed.
Lemma sorted_expand num turns : forall i l, StronglySorted Z.le l -> Forall (fun x => i <= x < i + Z.of_nat turns) l ->
  (forall j, i <= j < i + Z.of_nat turns -> at_index num j = count_size l j) -> l = expand turns i num.
Proof.
  induction turns as [|turns IH]; intros i l S F H; cbn [expand].
  - destruct F as [|x l Hx _]; [reflexivity|lia].
  - destruct (sorted_head i l S) as (l' & E & S' & F'); [eapply Forall_impl; [|exact F]; cbn beta; intros; lia|].
    rewrite H by lia. rewrite E at 1. f_equal. apply IH; [exact S'| |].
    + rewrite E in F. apply Forall_app in F. destruct F as [_ F]. apply Forall_forall. intros x Hx.
      rewrite Forall_forall in F, F'. specialize (F x Hx). specialize (F' x Hx). lia.
    + intros j Hj. rewrite H by lia. rewrite E at 1. rewrite count_size_app, count_size_repeat by lia. lia.
Qed.

(** lengths above the limit are counted at the limit (miniz.cpp 945) *)
Lemma codes_upto_zero num k : forall a, (forall i, Z.of_nat a < i <= Z.of_nat (a + k) -> at_index num i = 0) -> codes_upto (a + k) num = codes_upto a num.
Proof.
  induction k as [|k IH]; intros a H; [now rewrite Nat.add_0_r|]. rewrite Nat.add_succ_r. cbn [codes_upto].
  rewrite H by lia. rewrite IH by (intros; apply H; lia). lia.
Qed.
Lemma clamped l num : Forall (fun x => 1 <= x <= 30) l -> len num = 33 ->
  (forall i, 0 <= i -> at_index num i = count_size l i) -> StronglySorted (fun a b => b <= a) l ->
  map (Z.min 15) (rev l) = expand 15 1 (bump num 15 (sum_from num 16)).
Proof.
  intros F L C S. set (M := map (Z.min 15) (rev l)).
  assert (StronglySorted Z.le M) as SM.
  { unfold M. clear - S. induction S as [|x l S IH G]; [constructor|]. cbn [rev]. rewrite map_app. cbn [map].
    assert (Forall (fun y => y <= Z.min 15 x) (map (Z.min 15) (rev l))) as G'.
    { apply Forall_forall. intros y Hy. apply in_map_iff in Hy. destruct Hy as (z & <- & Hz). apply in_rev in Hz.
      rewrite Forall_forall in G. specialize (G z Hz). lia. }
    clear - IH G'. induction IH as [|y m S' IH' Fy]; cbn [app]; [repeat constructor|].
    inversion G' as [|? ? Gy Gm]; subst. constructor; [apply IH'; exact Gm|]. apply Forall_app. split; [exact Fy|]. repeat constructor. exact Gy. }
  assert (Forall (fun x => 1 <= x <= 15) M) as FM.
  { unfold M. apply Forall_forall. intros y Hy. apply in_map_iff in Hy. destruct Hy as (z & <- & Hz). apply in_rev in Hz.
    rewrite Forall_forall in F. specialize (F z Hz). lia. }
  assert (forall i, 1 <= i < 15 -> count_size M i = count_size l i) as CM.
  { intros i Hi. unfold M. assert (count_size (rev l) i = count_size l i) as <-.
    { clear. induction l as [|x l IH]; [reflexivity|]. cbn [rev]. rewrite count_size_app, !count_size_cons, IH. cbn. lia. }
    clear - Hi. induction (rev l) as [|x m IH]; [reflexivity|]. cbn [map]. rewrite !count_size_cons, IH.
    destruct (Z.eqb_spec i (Z.min 15 x)), (Z.eqb_spec i x); lia. }
  apply sorted_expand; [exact SM|eapply Forall_impl; [|exact FM]; cbn beta; intros; lia|].
  (* the total decides the last one *)
  destruct (weigh_counts l) with (num := num) as [_ U]; [eapply Forall_impl; [|exact F]; cbn beta; intros; lia|exact C|].
  destruct (count_sizes_ok M (repeat 0 33)) as (mm & _ & Lm & Cm); [reflexivity|eapply Forall_impl; [|exact FM]; cbn beta; intros; lia|].
  assert (forall i, 0 <= i -> at_index mm i = count_size M i) as Cm' by (intros; rewrite Cm, at_repeat_0 by lia; lia).
  destruct (weigh_counts M) with (num := mm) as [_ UM]; [eapply Forall_impl; [|exact FM]; cbn beta; intros; lia|exact Cm'|].
  assert (codes_upto 32 mm = codes_upto 15 mm) as U15.
  { apply (codes_upto_zero mm 17 15). intros i Hi. rewrite Cm' by lia. clear - FM Hi. induction FM as [|x m Hx _ IH]; [reflexivity|].
    rewrite count_size_cons, IH. destruct (Z.eqb_spec i x); lia. }
  assert (codes_upto 14 mm = codes_upto 14 num) as U14.
  { apply codes_upto_ext. intros i Hi. rewrite Cm', C by lia. apply CM. lia. }
  assert (len M = len l) as LM by (unfold M, len; now rewrite map_length, rev_length).
  change 16 with (15 + 1). rewrite sum_from_eq by lia. change (Z.to_nat 15) with 15%nat.
  assert (codes_upto 15 mm = at_index mm 15 + codes_upto 14 mm) as E1 by reflexivity.
  assert (codes_upto 15 num = at_index num 15 + codes_upto 14 num) as E2 by reflexivity.
  intros j Hj. rewrite at_bump by lia. destruct (Z.eqb_spec 15 j) as [<-|N].
  - rewrite <- Cm' by lia. lia.
  - rewrite CM, C by lia. lia.
Qed.
Lemma kr_repeat x k : kr (repeat x k) = Z.of_nat k * 2 ^ (15 - x).
Proof. unfold kr. induction k as [|k IH]; [reflexivity|]. cbn [repeat map zsum]. rewrite IH. lia. Qed.
Lemma kr_expand num k : Z.of_nat k <= 15 -> (forall i, 1 <= i <= Z.of_nat k -> 0 <= at_index num i) -> kr (expand k 1 num) = weigh k 15 num.
Proof.
  induction k as [|k IH]; intros Hk H; [reflexivity|]. replace (S k) with (k + 1)%nat at 1 by lia. rewrite expand_split. unfold kr. rewrite map_app, zs_app.
  change (kr (expand k 1 num) + kr (expand 1 (1 + Z.of_nat k) num) = weigh (S k) 15 num).
  rewrite IH by (try lia; intros; apply H; lia). cbn [expand weigh]. rewrite app_nil_r, kr_repeat. replace (1 + Z.of_nat k) with (Z.of_nat (S k)) by lia.
  specialize (H (Z.of_nat (S k)) ltac:(lia)). rewrite Z.shiftl_mul_pow2, Z2Nat.id by lia. lia.
Qed.
Lemma descending_nth l : StronglySorted (fun a b => b <= a) l ->
  forall i j, 0 <= i <= j -> j < Z.of_nat (length (rev l)) -> nth (Z.to_nat i) (rev l) 0 <= nth (Z.to_nat j) (rev l) 0.
Proof.
  induction 1 as [|x l SS IH F]; intros i j Hi Hj; [cbn in Hj; lia|]. cbn [rev] in *. rewrite app_length, rev_length in Hj. cbn [length] in Hj.
  destruct (Z_lt_le_dec j (Z.of_nat (length l))) as [K|K].
  - rewrite !app_nth1 by (rewrite rev_length; lia). apply IH; [lia|rewrite rev_length; lia].
  - assert (j = Z.of_nat (length l)) as -> by lia. rewrite Nat2Z.id.
    assert (nth (length l) (rev l ++ [x]) 0 = x) as -> by (rewrite app_nth2 by (rewrite rev_length; lia); rewrite rev_length, Nat.sub_diag; reflexivity).
    destruct (Z.eq_dec i (Z.of_nat (length l))) as [->|].
    + rewrite Nat2Z.id, app_nth2, rev_length, Nat.sub_diag by (rewrite rev_length; lia). cbn [nth]. lia.
    + rewrite app_nth1 by (rewrite rev_length; lia). assert (In (nth (Z.to_nat i) (rev l) 0) (rev l)) as I by (apply nth_In; rewrite rev_length; lia).
      apply in_rev in I. rewrite Forall_forall in F. apply F. exact I.
Qed.
Lemma rlist_at l : rlist (at_index l) 0 (len l) = l.
Proof.
  unfold rlist, len. replace (Z.to_nat (Z.of_nat (length l) - 0)) with (length l) by lia.
  assert (forall k a, (a + k = length l)%nat -> flist k (at_index l) (Z.of_nat a) = skipn a l) as K.
  { induction k as [|k IH]; intros a H; cbn [flist].
    - rewrite skipn_all2 by lia. reflexivity.
    - replace (Z.of_nat a + 1) with (Z.of_nat (S a)) by lia. rewrite IH by lia. unfold at_index. rewrite Nat2Z.id.
      clear - H. revert l H. induction a as [|a IH]; intros [|x l] H; cbn [length] in H; try lia; [reflexivity|]. cbn [skipn nth]. apply IH. lia. }
  apply (K (length l) O). lia.
Qed.
Lemma zs_0 x i num : (forall j, 1 <= j -> at_index num j = 0) -> 1 <= i -> dotl x (expand 15 i num) = 0.
Proof. intros H Hi. rewrite expand_zero by (intros; apply H; lia). destruct x; reflexivity. Qed.

(** ** The cost of a table *)
Theorem optimize_cost counts sizes codes :
  len counts <= 512 -> Forall (fun c => 0 <= c) counts -> zsum counts <= 65535 ->
  optimize_table counts 15 = Ok (sizes, codes) ->
  (len counts <= 288 -> 7560 * dotl counts sizes <= 69268 * zsum counts) /\
  (len counts <= 32 -> 7560 * dotl counts sizes <= 38444 * zsum counts).
Proof.
  intros Hn512 Hpos Hsum HO. unfold optimize_table in HO.
  set (used := used_list 0 counts) in *. set (syms := radix_sort_syms used) in *. set (n := len used) in *.
  pose proof (radix_perm used) as HP. fold syms in HP.
  assert (length syms = length used) as HLs by (apply Permutation_length; exact HP).
  assert (n <= len counts) as Hnc by (unfold n, used, len; pose proof (used_list_length counts 0); lia).
  assert (0 <= zsum counts) as Hs0 by (apply zs_nonneg; exact Hpos).
  assert (forall x, In x used -> 0 <= snd x < len counts /\ fst x = at_index counts (snd x) /\ 1 <= fst x <= 65535) as HU.
  { intros x Hx. unfold used in Hx. apply used_list_in in Hx. destruct Hx as (H1 & H2 & H3). rewrite Z.sub_0_r in H2.
    split; [lia|]. split; [assumption|].
    assert (forall l i, Forall (fun c => 0 <= c) l -> 0 <= at_index l i <= zsum l) as K.
    { clear. intros l i H. revert i. induction H as [|y l Hy Hl IH]; intros i.
      - unfold at_index. destruct (Z.to_nat i); cbn; lia.
      - unfold at_index in *. cbn [zsum]. destruct (Z.to_nat i) as [|k] eqn:Ek; cbn [nth].
        + specialize (IH 0). assert (0 <= zsum l) by lia. lia.
        + specialize (IH (Z.of_nat k)). rewrite Nat2Z.id in IH. lia. }
    pose proof (K counts (snd x) Hpos). lia. }
  assert (forall x, In x syms -> In x used) as HSU by (intros x Hx; eapply Permutation_in; eassumption).
  assert (zsum (map fst syms) = zsum counts) as ZS.
  { rewrite <- (used_list_sum counts 0). apply zs_perm. apply Permutation_map. exact HP. }
  destruct (minimum_redundancy n (keys_to_arr 0 (map fst syms) arr_empty)) as [A| | |] eqn:RA; try discriminate HO. cbn [obind] in HO.
  destruct (count_sizes (arr_to_keys (length syms) 0 A) (repeat 0 33)) as [num0| | |] eqn:R0; try discriminate HO. cbn [obind] in HO.
  destruct (enforce_max_code_size num0 n 15) as [num| | |] eqn:R1; try discriminate HO. cbn [obind] in HO.
  destruct (give_sizes (Z.to_nat 15) 1 num (rev syms) (map (fun _ => 0) counts)) as [sz| | |] eqn:R2; try discriminate HO. cbn [obind] in HO.
  assert (sz = sizes) as -> by congruence. clear HO.
  apply (give_sizes_dot counts) in R2; [|now rewrite map_length| |].
  2:{ apply Forall_forall. intros x Hx. apply in_rev in Hx. destruct (HU x (HSU x Hx)) as (H1 & H2 & _). split; [exact H1|]. split; [exact H2|].
      unfold at_index. clear. revert x. induction counts as [|c t IH]; intros x; cbn [map]; destruct (Z.to_nat (snd x)) as [|k] eqn:E; try reflexivity.
      cbn [nth]. specialize (IH (0, Z.of_nat k)). cbn [snd] in IH. now rewrite Nat2Z.id in IH. }
  2:{ apply (Permutation_NoDup (l := map snd used)); [|apply used_list_nodup].
      apply Permutation_map. symmetry. rewrite <- Permutation_rev. exact HP. }
  rewrite dotl_zeros, Z.add_0_l in R2. change (Z.to_nat 15) with 15%nat in R2.
  assert (0 <= n) as Hn0 by apply len_nonneg.
  assert (n = 0 \/ n = 1 \/ 2 <= n) as [E|[E|Hn]] by lia.
  - assert (length syms = O) as LS by (unfold n, len in E; lia). destruct syms; [|discriminate LS]. cbn [rev map dotl] in R2. lia.
  - assert (length syms = 1%nat) as LS by (unfold n, len in E; lia). rewrite LS in R0. rewrite E in RA.
    assert (minimum_redundancy 1 (keys_to_arr 0 (map fst syms) arr_empty) = Ok (arr_set (keys_to_arr 0 (map fst syms) arr_empty) 0 1)) as RA1 by reflexivity.
    rewrite RA1 in RA. injection RA as <-. cbn [arr_to_keys] in R0. rewrite arr_get_same in R0. cbn in R0.
    unfold enforce_max_code_size in R1. rewrite E in R1. change (1 <=? 1) with true in R1. cbn match in R1. injection R1 as <-. injection R0 as <-.
    destruct syms as [|[c s] [|]]; try discriminate LS. cbn [rev app map fst] in R2. cbn [map fst zsum] in ZS. match type of R2 with _ = dotl _ ?x => let y := eval vm_compute in x in change x with y in R2 end. cbn [dotl] in R2. lia.
  - assert (len (map fst syms) = n) as HLm by (unfold n, len; rewrite map_length; f_equal; exact HLs).
    assert (Z.of_nat (length syms) = n) as HLz by (unfold n, len; f_equal; exact HLs). clearbody n.
    assert (Forall (fun x => 0 <= x) (map fst syms)) as F0.
    { apply Forall_forall. intros y Hy. apply in_map_iff in Hy. destruct Hy as (x & <- & Hx). specialize (HU x (HSU x Hx)). lia. }
    destruct (minimum_redundancy_full n (keys_to_arr 0 (map fst syms) arr_empty) (at_index (map fst syms)) (zsum counts))
        as (A' & RA' & HF & HW & HSd & HFb & ws & MG & LW & DW).
    + lia.
    + intros i Hi. rewrite keys_to_arr_get by lia. rewrite HLm, Z.sub_0_r.
      replace (0 <=? i) with true by lia. replace (i <? 0 + n) with true by lia. reflexivity.
    + intros i j Hi Hj. apply sorted_nth; [|lia|unfold len; rewrite HLz; lia]. apply radix_sorted. intros x Hx. specialize (HU x Hx). lia.
    + intros i Hi. assert (In (at_index (map fst syms) i) (map fst syms)) as Hin.
      { apply nth_In. unfold len in HLm. lia. }
      apply in_map_iff in Hin. destruct Hin as (x & E & Hx). specialize (HU x (HSU x Hx)). lia.
    + rewrite <- rlist_sum. rewrite <- HLm. rewrite rlist_at. exact ZS.
    + assumption.
    + rewrite RA in RA'. injection RA' as <-. cbv zeta in *. replace (Z.to_nat n) with (length syms) in * by lia.
      rewrite <- HLm in MG, DW, HFb. rewrite rlist_at in MG, DW, HFb.
      set (l := arr_to_keys (length syms) 0 A) in *. assert (length l = length syms) as Ll by apply arr_to_keys_length.
      destruct (count_sizes_ok l (repeat 0 33)) as (num0' & R0' & L0 & C0).
      { reflexivity. } { eapply Forall_impl; [|exact HF]. cbn beta. intros. lia. }
      rewrite R0 in R0'. injection R0' as <-.
      assert (forall i, 0 <= i -> at_index num0 i = count_size l i) as C0' by (intros; rewrite C0, at_repeat_0 by lia; lia).
      destruct (weigh_counts l) with (num := num0) as [W0 U0].
      { eapply Forall_impl; [|exact HF]. cbn beta. intros. lia. } { exact C0'. }
      destruct (enforce_max_ok num0 n 15) as (num' & R1' & L1 & (X1 & X2 & X3) & t & FT); try lia.
      { intros i Hi. rewrite C0' by lia. apply count_size_nonneg. }
      { rewrite U0. unfold len. rewrite Ll. exact HLz. }
      rewrite R1 in R1'. injection R1' as <-. change (Z.to_nat 15) with 15%nat in *. change (15 + 1) with 16 in FT.
      rewrite <- (clamped l num0 HF L0 C0' HSd) in FT.
      assert (forall N c, (forall a, 1 <= a < 15 -> 2 ^ (15 - a) <= N - 1 -> 7 <= a /\ 7560 * (15 - a) <= c * fib (Z.to_nat a + 1)) -> 0 <= c -> n <= N ->
                7560 * dotl counts sizes <= 7560 * zsum ws + (14 * (N - 1) + c) * zsum counts) as SC.
      { intros N c HC Hc HN. rewrite R2. assert (dotl (rev (map fst syms)) (rev l) = zsum ws) as <-.
        { rewrite dotl_rev; [exact DW|]. rewrite map_length. symmetry. exact Ll. }
        rewrite map_rev. apply (shortening_cost N c (zsum counts) (rev l) (rev (map fst syms)) (expand 15 1 num) t); try assumption.
        - apply descending_nth. exact HSd.
        - apply Forall_rev. exact HF.
        - apply Forall_rev. exact F0.
        - clear - HFb. induction HFb as [|x y a b H _ IH]; [constructor|]. cbn [rev]. apply Forall2_app; [exact IH|]. repeat constructor. exact H.
        - unfold w32. rewrite <- HW. unfold weight32. apply zs_perm. apply Permutation_map. symmetry. apply Permutation_rev.
        - rewrite kr_expand by (try lia; intros; apply X1; lia). exact X2.
        - rewrite rev_length, Ll. lia. }
      assert (length ws < length (map fst syms))%nat as LWS by (unfold len in HLm; lia).
      split; intros HN.
      * specialize (SC 288 2880). pose proof (cost_288 _ _ MG F0 LWS ltac:(unfold len in HLm; lia)) as CB. rewrite ZS in CB.
        assert (7560 * dotl counts sizes <= 7560 * zsum ws + (14 * (288 - 1) + 2880) * zsum counts) as B; [|lia].
        apply SC; [|lia|lia]. intros a Ha Hp.
        assert (7 <= a) as A7.
        { destruct (Z_lt_le_dec a 7); [|assumption]. assert (2 ^ 9 <= 2 ^ (15 - a)) by (apply Z.pow_le_mono_r; lia). change (2 ^ 9) with 512 in *. lia. }
        split; [exact A7|]. assert (a = 7 \/ a = 8 \/ a = 9 \/ a = 10 \/ a = 11 \/ a = 12 \/ a = 13 \/ a = 14) as AC by lia.
        repeat destruct AC as [->|AC]; try subst a; vm_compute; discriminate.
      * specialize (SC 32 210). pose proof (cost_log 5 _ _ MG F0 LWS ltac:(change (2 ^ 5)%nat with 32%nat; unfold len in HLm; lia)) as CB. rewrite ZS in CB.
        assert (7560 * dotl counts sizes <= 7560 * zsum ws + (14 * (32 - 1) + 210) * zsum counts) as B; [|lia].
        apply SC; [|lia|lia]. intros a Ha Hp.
        assert (11 <= a) as A7.
        { destruct (Z_lt_le_dec a 11); [|assumption]. assert (2 ^ 5 <= 2 ^ (15 - a)) by (apply Z.pow_le_mono_r; lia). change (2 ^ 5) with 32 in *. lia. }
        split; [lia|]. assert (a = 11 \/ a = 12 \/ a = 13 \/ a = 14) as AC by lia.
        repeat destruct AC as [->|AC]; try subst a; vm_compute; discriminate.
Qed.
