(** Every string of bits is a DEFLATE stream, has a fault, or says something without a
    meaning: DeflateFaults.v leaves nothing out.  Nothing here is about src/miniz. *)
From Coq Require Import ZArith List Bool Lia.
From Verif Require Import Base BaseFacts DeflateSpec DeflateFaults BitFacts HuffFacts HuffBuild.
Import ListNotations.
Open Scope Z_scope.

(** ** A complete code has a codeword for everything *)
Definition keyed (n : Z) (i x : Z) : bool := x * 512 + i <? n.
Lemma wsum_ext p q L : forall i, (forall k, i <= k < i + len L -> p k (code_len L (k - i)) = q k (code_len L (k - i))) ->
  wsum p i L = wsum q i L.
Proof.
  induction L as [|x t IH]; intros i H; cbn [wsum]; [reflexivity|]. rewrite len_cons in H. pose proof (len_nonneg _ t).
  f_equal.
  - specialize (H i ltac:(lia)). rewrite Z.sub_diag in H. unfold code_len in H. cbn [Z.to_nat nth] in H. now rewrite H.
  - apply IH. intros k Hk. specialize (H k ltac:(lia)). rewrite code_len_cons in H by lia.
    now replace (k - i - 1) with (k - (i + 1)) in H by lia.
Qed.
Lemma wsum_step n L : forall i, 0 <= i -> i + len L <= 512 -> 0 <= n ->
  wsum (keyed (n + 1)) i L = wsum (keyed n) i L \/
  exists s, i <= s < i + len L /\ 0 < code_len L (s - i) /\ code_len L (s - i) * 512 + s = n /\
    wsum (keyed (n + 1)) i L = wsum (keyed n) i L + 2 ^ (15 - code_len L (s - i)).
Proof.
  induction L as [|x t IH]; intros i Hi Hl Hn; cbn [wsum]; [now left|]. rewrite len_cons in *. pose proof (len_nonneg _ t) as Ht.
  destruct (IH (i + 1) ltac:(lia) ltac:(lia) Hn) as [E|(s & Hs & H0 & Hk & E)].
  - destruct (Z.eq_dec (x * 512 + i) n) as [Ek|Ek].
    + destruct (0 <? x) eqn:Ex; [|left; rewrite E; reflexivity].
      right. exists i. rewrite Z.sub_diag. unfold code_len at 1 2 3. cbn [Z.to_nat nth]. apply Z.ltb_lt in Ex.
      split; [lia|]. split; [exact Ex|]. split; [exact Ek|]. rewrite E.
      assert (keyed (n + 1) i x = true) as -> by (unfold keyed; lia). assert (keyed n i x = false) as -> by (unfold keyed; lia).
      cbn [andb]. unfold code_len. cbn [Z.to_nat nth]. lia.
    + left. rewrite E. f_equal. unfold keyed. replace (x * 512 + i <? n + 1) with (x * 512 + i <? n) by lia. reflexivity.
  - right. exists s. rewrite code_len_cons by lia. replace (s - i - 1) with (s - (i + 1)) by lia.
    split; [lia|]. split; [exact H0|]. split; [exact Hk|]. rewrite E.
    assert (keyed (n + 1) i x = keyed n i x) as -> by (unfold keyed; lia). lia.
Qed.
Lemma complete_code L v : lens_ok L -> len L <= 512 -> 0 <= v < kraft L -> exists s, in_code L s /\ lo L s <= v < hi L s.
Proof.
  intros HL H512 Hv.
  assert (forall n : nat, v < wsum (keyed (Z.of_nat n)) 0 L -> exists s, in_code L s /\ lo L s <= v < hi L s) as H.
  { induction n as [|n IH]; intros Hn.
    - exfalso. assert (forall l i, 0 <= i -> lens_ok l -> wsum (keyed (Z.of_nat 0)) i l = 0) as H0.
      { induction l as [|x t IHl]; intros i Hi Hl; cbn [wsum]; [reflexivity|]. inversion Hl as [|? ? Hx Hl']; subst. rewrite (IHl (i + 1) ltac:(lia) Hl').
        cbv beta in Hx. assert (keyed (Z.of_nat 0) i x = false) as -> by (unfold keyed; change (Z.of_nat 0) with 0; apply Z.ltb_ge; lia). now rewrite andb_false_r. }
      rewrite (H0 L 0 ltac:(lia) HL) in Hn. lia.
    - rewrite Nat2Z.inj_succ in Hn. unfold Z.succ in Hn.
      destruct (wsum_step (Z.of_nat n) L 0 ltac:(lia) ltac:(lia) ltac:(lia)) as [E|(s & Hs & H0 & Hk & E)]; [apply IH; lia|].
      rewrite Z.sub_0_r in *.
      destruct (Z_lt_ge_dec v (wsum (keyed (Z.of_nat n)) 0 L)) as [Hlt|Hge]; [auto|].
      exists s. assert (in_code L s) as Hin by (split; [lia|exact H0]). split; [exact Hin|].
      rewrite hi_lo, lo_wsum by assumption.
      replace (wsum (before s (code_len L s)) 0 L) with (wsum (keyed (Z.of_nat n)) 0 L); [lia|].
      apply wsum_ext. intros k Hkr. rewrite Z.sub_0_r. unfold keyed, before. rewrite <- Hk.
      pose proof (code_len_range L k HL). lia. }
  apply (H (Z.to_nat (16 * 512))). rewrite Z2Nat.id by lia.
  rewrite <- (wsum_all 0) in Hv. rewrite (wsum_ext (keyed (16 * 512)) (fun _ _ => true)); [lia|].
  intros k Hk. rewrite Z.sub_0_r. unfold keyed. pose proof (code_len_range L k HL). lia.
Qed.

(** ** Symbols *)
Lemma search (P : Z -> Prop) (n : nat) : (forall s, P s \/ ~ P s) ->
  (exists s, 0 <= s < Z.of_nat n /\ P s) \/ (forall s, 0 <= s < Z.of_nat n -> ~ P s).
Proof.
  intros Hdec. induction n as [|n IH]; [right; lia|].
  destruct IH as [(s & Hs & HP)|N]; [left; exists s; split; [lia|exact HP]|].
  destruct (Hdec (Z.of_nat n)) as [H|H]; [left; exists (Z.of_nat n); split; [lia|exact H]|].
  right. intros s Hs. destruct (Z.eq_dec s (Z.of_nat n)) as [->|]; [exact H|]. apply N. lia.
Qed.
Lemma starts_dec (a : list bool) : forall b, (exists m, b = a ++ m) \/ (forall m, b <> a ++ m).
Proof.
  induction a as [|x a IH]; intros b; [left; exists b; reflexivity|].
  destruct b as [|y b]; [right; intros m; discriminate|].
  destruct (bool_dec y x) as [->|Hne]; [|right; intros m E; injection E; congruence].
  destruct (IH b) as [(m & ->)|N]; [left; exists m; reflexivity|]. right. intros m E. injection E as E. now apply (N m).
Qed.
Lemma has_codeword_dec L bits : (exists s more, in_code L s /\ bits = codeword L s ++ more) \/ no_codeword L bits.
Proof.
  destruct (search (fun s => in_code L s /\ exists more, bits = codeword L s ++ more) (length L)) as [(s & Hs & Hin & more & E)|N].
  - intros s. assert (in_code L s \/ ~ in_code L s) as [H|H].
    { unfold in_code. destruct (Z_le_gt_dec 0 s); [|right; lia]. destruct (Z_lt_ge_dec s (len L)); [|right; lia].
      destruct (Z_lt_ge_dec 0 (code_len L s)); [left; auto|right; lia]. }
    + destruct (starts_dec (codeword L s) bits) as [(m & E)|N]; [left; eauto|]. right. intros (_ & m & E). exact (N m E).
    + right. tauto.
  - left. eauto.
  - right. intros s more Hin E. apply (N s); [destruct Hin; unfold len in *; lia|]. eauto.
Qed.
Lemma stops_dec L bits : stops_inside L bits \/ ~ stops_inside L bits.
Proof.
  destruct (search (fun s => in_code L s /\ exists more, more <> [] /\ codeword L s = bits ++ more) (length L)) as [(s & Hs & Hin & more & Hm & E)|N].
  - intros s. assert (in_code L s \/ ~ in_code L s) as [H|H].
    { unfold in_code. destruct (Z_le_gt_dec 0 s); [|right; lia]. destruct (Z_lt_ge_dec s (len L)); [|right; lia].
      destruct (Z_lt_ge_dec 0 (code_len L s)); [left; auto|right; lia]. }
    + destruct (starts_dec bits (codeword L s)) as [(m & E)|N]; [|right; intros (_ & m & _ & E); exact (N m E)].
      destruct m as [|x m]; [|left; split; [exact H|]; exists (x :: m); split; [discriminate|exact E]].
      right. intros (_ & m & Hm & E2). rewrite E in E2. apply app_inv_head in E2. now subst.
    + right. tauto.
  - left. exists s, more. auto.
  - right. intros (s & more & Hin & Hm & E). apply (N s); [destruct Hin; unfold len in *; lia|]. eauto.
Qed.
Lemma mval_inj a b : length a = length b -> mval a = mval b -> a = b.
Proof.
  intros Hl E. unfold mval in E. apply bval_inj in E; [|now rewrite !rev_length].
  rewrite <- (rev_involutive a), <- (rev_involutive b). now rewrite E.
Qed.
Lemma complete_symbol L bits : lens_ok L -> len L <= 512 -> kraft L = 2 ^ 15 ->
  (exists s more, in_code L s /\ bits = codeword L s ++ more) \/ stops_inside L bits.
Proof.
  intros HL H512 HK. set (v := firstn 15 (bits ++ repeat false 15)).
  assert (length v = 15%nat) as Lv by (unfold v; rewrite firstn_length, app_length, repeat_length; lia).
  pose proof (mval_range v) as Rv. rewrite Lv in Rv. change (Z.of_nat 15) with 15 in Rv.
  destruct (complete_code L (mval v) HL H512 ltac:(lia)) as (s & Hin & Hs).
  pose proof (code_len_range L s HL) as Hc. assert (0 < code_len L s) as Hc0 by apply Hin.
  pose proof (codeword_length L s) as Lw. set (w := codeword L s) in *.
  assert (firstn (length w) v = w) as Ew.
  { apply mval_inj; [rewrite firstn_length, Lv; lia|]. unfold w at 2. rewrite mval_codeword by (auto; lia).
    unfold lo, hi in Hs. rewrite <- (firstn_skipn (length w) v), mval_app in Hs.
    set (a := mval (firstn (length w) v)) in *. set (r := skipn (length w) v) in *.
    assert (Z.of_nat (length r) = 15 - code_len L s) as Lr by (unfold r; rewrite skipn_length, Lv; lia).
    pose proof (mval_range r) as Rr. rewrite Lr in *. set (P := 2 ^ (15 - code_len L s)) in *. assert (0 < P) by (apply pow2_pos; lia). nia. }
  destruct (Nat.le_gt_cases (length w) (length bits)) as [Hle|Hgt].
  - left. exists s, (skipn (length w) bits). split; [exact Hin|]. fold w. rewrite <- Ew at 1. unfold v.
    rewrite firstn_firstn, Nat.min_l by lia. rewrite firstn_app. replace (length w - length bits)%nat with 0%nat by lia.
    cbn [firstn]. rewrite app_nil_r. symmetry. apply firstn_skipn.
  - right. exists s, (firstn (length w - length bits) (repeat false 15)). split; [exact Hin|]. split.
    + intros E. apply (f_equal (@length bool)) in E. rewrite firstn_length, repeat_length in E. cbn in E. lia.
    + fold w. rewrite <- Ew at 1. unfold v. rewrite firstn_firstn, Nat.min_l by lia. rewrite firstn_app. now rewrite firstn_all2 by lia.
Qed.
Lemma symbol_cases L bits : valid_code L -> len L <= 512 ->
  (exists s more, in_code L s /\ bits = codeword L s ++ more) \/ stops_inside L bits \/ meaningless L bits.
Proof.
  intros V H512. destruct V as [HL [HK|H1]].
  - destruct (complete_symbol L bits HL H512 HK); auto.
  - destruct (has_codeword_dec L bits) as [H|H]; [now left|]. right. destruct (stops_dec L bits); [now left|]. right. split; auto.
Qed.
Lemma cut_bits (n : Z) (b : list bool) : 0 <= n <= len b ->
  exists v b', b = lsb_bits (Z.to_nat n) v ++ b' /\ 0 <= v < 2 ^ n /\ len b' = len b - n.
Proof.
  intros Hn. rewrite <- (ztake_zdrop _ n b). set (w := ztake n b).
  assert (len w = n) as Hw by (unfold w; rewrite len_ztake; lia).
  pose proof (bval_range w) as B. exists (bval w), (zdrop n b).
  replace (Z.to_nat n) with (length w) by (unfold len in Hw; lia). rewrite lsb_bval. split; [reflexivity|].
  split; [change (Z.of_nat (length w)) with (len w) in B; rewrite Hw in B; exact B|].
  rewrite len_app, Hw, len_zdrop. lia.
Qed.

(** ** Tokens *)
Lemma length_code_some k : 0 <= k < 29 -> exists lb lx, znth length_codes k = Some (lb, lx) /\ 0 <= lx.
Proof.
  intros Hk. assert (forallb (fun k => match znth length_codes k with Some (lb, lx) => 0 <=? lx | None => false end) (zseq 0 29) = true) as C by reflexivity.
  rewrite forallb_forall in C. specialize (C k). rewrite zseq_in in C. specialize (C ltac:(lia)).
  destruct (znth length_codes k) as [[lb lx]|]; [|discriminate]. exists lb, lx. split; [reflexivity|lia].
Qed.
Lemma distance_code_some k : 0 <= k < 30 -> exists db dx, znth distance_codes k = Some (db, dx) /\ 0 <= dx /\ 1 <= db.
Proof.
  intros Hk. assert (forallb (fun k => match znth distance_codes k with Some (db, dx) => (0 <=? dx) && (1 <=? db) | None => false end) (zseq 0 30) = true) as C by reflexivity.
  rewrite forallb_forall in C. specialize (C k). rewrite zseq_in in C. specialize (C ltac:(lia)).
  destruct (znth distance_codes k) as [[db dx]|]; [|discriminate]. exists db, dx. split; [reflexivity|lia].
Qed.
Lemma codeword_pos L s : in_code L s -> (1 <= length (codeword L s))%nat.
Proof. intros [_ H]. rewrite codeword_length. lia. Qed.
Section Tokens.
Variables LL DL : list Z.
Hypothesis V0 : valid_code LL.
Hypothesis V1 : valid_code DL.
Hypothesis H0 : len LL <= 288.
Hypothesis H1 : len DL <= 32.
Lemma token_cases out bits :
  (exists t b more, token_bits LL DL t b /\ bits = b ++ more /\ (1 <= length b)%nat /\
     match t with Lit _ => True | Copy _ d => 1 <= d <= len out end) \/
  (exists more, in_code LL 256 /\ bits = codeword LL 256 ++ more) \/
  token_cut LL DL bits \/ token_senseless LL DL out bits.
Proof.
  destruct (symbol_cases LL bits V0 ltac:(lia)) as [(s & more & Hin & E)|[H|H]].
  2:{ right; right; left. now constructor. }
  2:{ right; right; right. now constructor. }
  pose proof Hin as [Hs _]. pose proof (codeword_pos _ _ Hin) as Lw.
  destruct (Z_lt_ge_dec s 256) as [H256|H256].
  { left. exists (Lit s), (codeword LL s), more. split; [constructor; [lia|exact Hin]|]. auto. }
  destruct (Z.eq_dec s 256) as [->|Hne]; [right; left; eauto|].
  destruct (Z_lt_ge_dec s 286) as [H286|H286].
  2:{ right; right; right. rewrite E. apply Length_symbol_unknown; [lia|exact Hin]. }
  set (k := s - 257). assert (s = 257 + k) as Es by (unfold k; lia). rewrite Es in *. clearbody k. clear Es s.
  destruct (length_code_some k ltac:(lia)) as (lb & lx & Hk & Hlx).
  destruct (Z_lt_ge_dec (len more) lx) as [Hc|Hc].
  { right; right; left. rewrite E. eapply Cut_length; eauto. }
  destruct (cut_bits lx more ltac:(lia)) as (le & more1 & -> & Hle & _).
  assert (len (lsb_bits (Z.to_nat lx) le) = lx) as Lle by (rewrite lsb_len; lia).
  destruct (symbol_cases DL more1 V1 ltac:(lia)) as [(j & more2 & Hinj & ->)|[H|H]].
  2:{ right; right; left. rewrite E. eapply Cut_distance; eauto. }
  2:{ right; right; right. rewrite E. eapply Distance_without_meaning; eauto. }
  pose proof Hinj as [Hj _].
  destruct (Z_lt_ge_dec j 30) as [H30|H30].
  2:{ right; right; right. rewrite E. eapply Distance_symbol_unknown; eauto. lia. }
  destruct (distance_code_some j ltac:(lia)) as (db & dx & Hjd & Hdx & Hdb).
  destruct (Z_lt_ge_dec (len more2) dx) as [Hc2|Hc2].
  { right; right; left. rewrite E. eapply Cut_extra; eauto. }
  destruct (cut_bits dx more2 ltac:(lia)) as (de & more3 & -> & Hde & _).
  assert (token_bits LL DL (Copy (lb + le) (db + de)) (codeword LL (257 + k) ++ lsb_bits (Z.to_nat lx) le ++ codeword DL j ++ lsb_bits (Z.to_nat dx) de)) as HT
    by (econstructor; eauto).
  assert (bits = (codeword LL (257 + k) ++ lsb_bits (Z.to_nat lx) le ++ codeword DL j ++ lsb_bits (Z.to_nat dx) de) ++ more3) as E2
    by (rewrite E, <- !app_assoc; reflexivity).
  destruct (Z_le_gt_dec (db + de) (len out)) as [Hd|Hd].
  - left. eexists _, _, more3. split; [exact HT|]. split; [exact E2|]. split; [rewrite app_length; lia|]. lia.
  - right; right; right. rewrite E2. eapply Distance_too_far; [exact HT|lia].
Qed.
Lemma tokens_cases : forall n bits out, (length bits <= n)%nat ->
  (exists ts b r more, tokens_bits LL DL ts b /\ expands out ts r /\ bits = b ++ more) \/
  (exists ts bs b r, tokens_so_far LL DL ts bs /\ expands out ts r /\ bits = bs ++ b /\
     (token_cut LL DL b \/ token_senseless LL DL r b)).
Proof.
  induction n as [|n IH]; intros bits out Hn;
    (destruct (token_cases out bits) as [(t & b & more & Ht & -> & Hb & Hd)|[(more & Hin & ->)|H]];
     [|left; exists [], (codeword LL 256), out, more; split; [now constructor|]; split; [constructor|reflexivity]
      |right; exists [], [], bits, out; split; [constructor|]; split; [constructor|]; auto]).
  - rewrite app_length in Hn. lia.
  - rewrite app_length in Hn.
    set (out1 := match t with Lit c => out ++ [c] | Copy n d => copy (Z.to_nat n) d out end).
    assert (forall ts r, expands out1 ts r -> expands out (t :: ts) r) as HX by (intros ts r H; unfold out1 in H; destruct t; now constructor).
    destruct (IH more out1 ltac:(lia)) as [(ts & b1 & r & m1 & Hts & HE & ->)|(ts & bs & b1 & r & Hts & HE & -> & HF)].
    + left. exists (t :: ts), (b ++ b1), r, m1. split; [now constructor|]. split; [auto|]. now rewrite <- app_assoc.
    + right. exists (t :: ts), (b ++ bs), b1, r. split; [now constructor|]. split; [auto|]. split; [now rewrite <- app_assoc|exact HF].
Qed.
End Tokens.

(** ** Code lengths *)
Lemma list_end {A} (l : list A) : l = [] \/ exists l' x, l = l' ++ [x].
Proof. destruct l using rev_ind; [now left|right; eauto]. Qed.
Lemma lengths_cases CL total : valid_code CL -> len CL = 19 -> forall n bits acc, (length bits <= n)%nat -> len acc <= total ->
  (exists bl l more, lengths_bits CL acc bl l /\ len l = total /\ bits = bl ++ more) \/
  (exists bl l b, lengths_bits CL acc bl l /\ len l < total /\ bits = bl ++ b /\ (lengths_fault CL total l b \/ meaningless CL b)).
Proof.
  intros V H19. induction n as [|n IH]; intros bits acc Hn Hacc;
    (destruct (Z.eq_dec (len acc) total) as [Et|Et]; [left; exists [], acc, bits; split; [constructor|]; auto|]);
    (destruct (symbol_cases CL bits V ltac:(lia)) as [(s & more & Hin & E)|H];
     [|right; exists [], acc, bits; split; [constructor|]; split; [lia|]; split; [reflexivity|];
       destruct H as [H|H]; [left; now constructor|now right]]); pose proof (codeword_pos _ _ Hin) as Lw.
  { rewrite E, app_length in Hn. lia. }
  rewrite E, app_length in Hn. pose proof Hin as [Hs _].
  destruct (Z_lt_ge_dec s 16) as [H16|H16].
  { destruct (Z.eq_dec (len acc) total); [congruence|].
    destruct (IH more (acc ++ [s]) ltac:(lia)) as [(bl & l & m & HL & Hl & ->)|(bl & l & b & HL & Hl & -> & HF)].
    - rewrite len_app. change (len [s]) with 1. lia.
    - left. exists (codeword CL s ++ bl), l, m. split; [constructor; [lia|exact Hin|exact HL]|]. split; [exact Hl|]. now rewrite E, <- app_assoc.
    - right. exists (codeword CL s ++ bl), l, b. split; [constructor; [lia|exact Hin|exact HL]|]. split; [exact Hl|]. split; [now rewrite E, <- app_assoc|exact HF]. }
  assert (exists base ex, In (s, base, ex) repeat_codes /\ 0 <= ex) as (base & ex & Hr & Hex).
  { assert (s = 16 \/ s = 17 \/ s = 18) as [-> | [-> | ->]] by lia; unfold repeat_codes.
    - exists 3, 2. split; [now left|lia].
    - exists 3, 3. split; [right; now left|lia].
    - exists 11, 7. split; [right; right; now left|lia]. }
  assert (s = 16 /\ acc = [] \/ (s = 16 -> exists a x, acc = a ++ [x])) as [[-> ->]|Hx].
  { destruct (Z.eq_dec s 16); [|right; intros; congruence]. destruct (list_end acc); [left; auto|right; auto]. }
  { right. exists [], [], bits. split; [constructor|]. split; [lia|]. split; [reflexivity|]. left. rewrite E. now apply Nothing_to_repeat. }
  destruct (Z_lt_ge_dec (len more) ex) as [Hc|Hc].
  { right. exists [], acc, bits. split; [constructor|]. split; [lia|]. split; [reflexivity|]. left. rewrite E. eapply Lengths_stop_extra; eauto. }
  destruct (cut_bits ex more ltac:(lia)) as (e & more1 & -> & He & Hm1).
  destruct (Z_lt_ge_dec total (len acc + base + e)) as [Hbig|Hbig].
  { right. exists [], acc, bits. split; [constructor|]. split; [lia|]. split; [reflexivity|]. left. rewrite E. eapply Too_many_lengths; eauto. }
  assert (exists x, forall b r, lengths_bits CL (acc ++ zrepeat x (base + e)) b r ->
     lengths_bits CL acc (codeword CL s ++ lsb_bits (Z.to_nat ex) e ++ b) r) as (x & HL).
  { destruct Hr as [Hr|[Hr|[Hr|[]]]]; injection Hr as <- <- <-.
    - destruct (Hx eq_refl) as (a & x & ->). exists x. intros b r H. rewrite <- app_assoc in H.
      apply Lengths_repeat; [exact Hin|exact He|exact H].
    - exists 0. intros b r H. apply Lengths_zeros; [exact Hin|exact He|exact H].
    - exists 0. intros b r H. apply Lengths_many_zeros; [exact Hin|exact He|exact H]. }
  assert (1 <= base) as Hbase by (destruct Hr as [Hr|[Hr|[Hr|[]]]]; injection Hr as <- <- <-; lia).
  rewrite app_length in Hn.
  destruct (IH more1 (acc ++ zrepeat x (base + e)) ltac:(lia)) as [(bl & l & m & HLb & Hl & ->)|(bl & l & b & HLb & Hl & -> & HF)].
  - rewrite len_app, len_zrepeat. lia.
  - left. eexists _, l, m. split; [apply HL; exact HLb|]. split; [exact Hl|]. now rewrite E, <- !app_assoc.
  - right. eexists _, l, b. split; [apply HL; exact HLb|]. split; [exact Hl|]. split; [now rewrite E, <- !app_assoc|exact HF].
Qed.

(** ** Blocks *)
Lemma whole_bytes : forall n (b : list bool), (length b <= n)%nat -> len b mod 8 = 0 -> exists data, b = bits_of data /\ bytes_ok data.
Proof.
  induction n as [|n IH]; intros b Hn Hm; destruct b as [|x b'] eqn:Eb;
    try (exists []; split; [reflexivity|constructor]); [cbn in Hn; lia|].
  rewrite <- Eb in *. assert (1 <= len b) as H1 by (rewrite Eb, len_cons; pose proof (len_nonneg _ b'); lia).
  assert (8 <= len b) as H8 by (pose proof (Z.div_mod (len b) 8 ltac:(lia)); lia).
  destruct (cut_bits 8 b ltac:(lia)) as (v & b1 & E & Hv & Hl). change (Z.to_nat 8) with 8%nat in E.
  destruct (IH b1) as (data & -> & Hd).
  - apply (f_equal (@length bool)) in E. rewrite app_length, lsb_length in E. lia.
  - rewrite Hl. replace (len b - 8) with (len b + (-1) * 8) by lia. now rewrite Z_mod_plus_full.
  - exists (v :: data). split; [rewrite bits_of_cons; exact E|]. constructor; [exact Hv|exact Hd].
Qed.
Lemma stored_cases pos out b : (pos + 2 + len b) mod 8 = 0 ->
  (exists b1 r more, block_bits pos out b1 r /\ lsb_bits 2 0 ++ b = b1 ++ more) \/
  (exists r, block_fault pos out (lsb_bits 2 0 ++ b) r).
Proof.
  intros Hpos. pose proof (len_nonneg _ b) as Hb0.
  set (n := (- (pos + 2)) mod 8). assert (0 <= n < 8) as Hn by (apply Z.mod_pos_bound; lia).
  assert ((pos + 2 + n) mod 8 = 0) as Hpn.
  { unfold n. rewrite Zplus_mod_idemp_r. replace (pos + 2 + - (pos + 2)) with 0 by lia. reflexivity. }
  assert (n <= len b) as Hle.
  { pose proof (Z.div_mod (pos + 2 + n) 8 ltac:(lia)). pose proof (Z.div_mod (pos + 2 + len b) 8 ltac:(lia)).
    set (x := (pos + 2 + n) / 8) in *. set (y := (pos + 2 + len b) / 8) in *. clearbody n x y. lia. }
  rewrite <- (ztake_zdrop _ n b). set (pad := ztake n b). set (b1 := zdrop n b).
  assert (len pad = n) as Hpad by (unfold pad; rewrite len_ztake; lia).
  assert (len b1 = len b - n) as Hb1 by (unfold b1; rewrite len_zdrop; lia).
  assert (len b1 mod 8 = 0) as Hm1.
  { replace (len b1) with (pos + 2 + len b - (pos + 2 + n)) by lia. rewrite Zminus_mod, Hpos, Hpn. reflexivity. }
  rewrite <- Hpad in Hpn.
  destruct (Z_lt_ge_dec (len b1) 32) as [H32|H32].
  { right. exists out. apply Stored_lengths_cut; auto. lia. }
  destruct (cut_bits 16 b1 ltac:(lia)) as (k & b2 & Eb1 & Hk & Hb2).
  destruct (cut_bits 16 b2 ltac:(lia)) as (m & b3 & -> & Hm & Hb3).
  change (Z.to_nat 16) with 16%nat in *. change (2 ^ 16) with 65536 in *. rewrite Eb1.
  destruct (Z.eq_dec m (65535 - k)) as [->|Hne].
  2:{ right. exists out. apply Stored_lengths_differ; auto; lia. }
  destruct (whole_bytes (length b3) b3 ltac:(lia)) as (data & -> & Hd).
  { rewrite Hb3, Hb2. replace (len b1 - 16 - 16) with (len b1 + (-4) * 8) by lia. now rewrite Z_mod_plus_full. }
  destruct (Z_lt_ge_dec (len data) k) as [Hc|Hc].
  { right. exists (out ++ data). apply Stored_data_cut; auto; lia. }
  left. rewrite <- (ztake_zdrop _ k data) in Hd |- *. apply bytes_ok_app in Hd.
  assert (len (ztake k data) = k) as Hk2 by (rewrite len_ztake; lia).
  exists (lsb_bits 2 0 ++ pad ++ lsb_bits 16 (len (ztake k data)) ++ lsb_bits 16 (65535 - len (ztake k data)) ++ bits_of (ztake k data)).
  eexists (out ++ ztake k data), (bits_of (zdrop k data)). split; [constructor; auto; try lia; apply Hd|].
  rewrite Hk2, bits_of_app, <- !app_assoc. reflexivity.
Qed.
Lemma fixed_valid : valid_code fixed_lengths /\ valid_code fixed_distances /\ len fixed_lengths <= 288 /\ len fixed_distances <= 32.
Proof.
  assert (forall x n, 0 <= x <= 15 -> Forall (fun y => 0 <= y <= 15) (repeat x n)) as H.
  { intros x n Hx. induction n; cbn [repeat]; constructor; auto. }
  split; [split|split; [split|split]].
  - unfold fixed_lengths. rewrite !Forall_app. split; [|split; [|split]]; apply H; lia.
  - left. reflexivity.
  - apply H. lia.
  - left. reflexivity.
  - apply Z.leb_le. reflexivity.
  - apply Z.leb_le. reflexivity.
Qed.
(** any bits as the lengths of the code length code *)
Definition sent_lengths (order : list Z) (vs : list Z) : list Z :=
  fold_left (fun l (sv : Z * Z) => nth_update l (Z.to_nat (fst sv)) (snd sv)) (combine order vs) (repeat 0 19).
Lemma three_bits : forall n b, 3 * Z.of_nat n <= len b -> exists vs b', length vs = n /\ Forall (fun x => 0 <= x <= 7) vs /\
  b = flat_map (lsb_bits 3) vs ++ b' /\ len b' = len b - 3 * Z.of_nat n.
Proof.
  induction n as [|n IH]; intros b Hb.
  - exists [], b. split; [reflexivity|]. split; [constructor|]. split; [reflexivity|lia].
  - destruct (cut_bits 3 b ltac:(lia)) as (v & b1 & -> & Hv & Hb1).
    destruct (IH b1 ltac:(lia)) as (vs & b2 & Hl & HF & -> & Hb2).
    exists (v :: vs), b2. split; [cbn; lia|]. split; [constructor; [change (2 ^ 3) with 8 in Hv; lia|exact HF]|].
    split; [cbn [flat_map]; rewrite <- app_assoc; reflexivity|lia].
Qed.
Lemma update_len (l : list (Z * Z)) : forall L, len (fold_left (fun l (sv : Z * Z) => nth_update l (Z.to_nat (fst sv)) (snd sv)) l L) = len L.
Proof. induction l as [|x l IH]; intros L; cbn [fold_left]; [reflexivity|]. rewrite IH. unfold len. now rewrite nth_update_length. Qed.
Lemma update_out (l : list (Z * Z)) : forall L s, 0 <= s -> Forall (fun sv => 0 <= fst sv < len L) l ->
  ~ In s (map fst l) -> code_len (fold_left (fun l (sv : Z * Z) => nth_update l (Z.to_nat (fst sv)) (snd sv)) l L) s = code_len L s.
Proof.
  induction l as [|[a v] l IH]; intros L s Hs HF Hn; cbn [fold_left fst snd]; [reflexivity|].
  inversion HF as [|? ? Ha HF']; subst. cbn [fst] in Ha. cbn [map fst In] in Hn.
  rewrite IH; auto.
  - unfold code_len. rewrite nth_nth_update by (unfold len in Ha; lia).
    replace (Nat.eqb (Z.to_nat a) (Z.to_nat s)) with false; [reflexivity|]. symmetry. apply Nat.eqb_neq. intros E. apply Hn. left. lia.
  - eapply Forall_impl; [|exact HF']. intros [? ?] H. cbv beta in *. unfold len in *. now rewrite nth_update_length.
Qed.
Lemma update_all : forall order vs L, NoDup order -> length order = length vs -> Forall (fun s => 0 <= s < len L) order ->
  map (code_len (fold_left (fun l (sv : Z * Z) => nth_update l (Z.to_nat (fst sv)) (snd sv)) (combine order vs) L)) order = vs.
Proof.
  induction order as [|a order IH]; intros vs L HN Hl HF; destruct vs as [|v vs]; try discriminate; [reflexivity|].
  cbn [combine fold_left fst snd map]. inversion HN as [|? ? Hni HN']; subst. inversion HF as [|? ? Ha HF']; subst.
  injection Hl as Hl.
  assert (Forall (fun s => 0 <= s < len (nth_update L (Z.to_nat a) v)) order) as HF2
    by (unfold len in *; now rewrite nth_update_length).
  f_equal; [|apply IH; auto].
  rewrite update_out.
  - unfold code_len. rewrite nth_nth_update by (unfold len in Ha; lia). now rewrite Nat.eqb_refl.
  - lia.
  - clear - HF2 Hl. revert vs Hl. induction order as [|b order IHo]; intros [|w vs] Hl; try discriminate; cbn [combine]; constructor.
    + inversion HF2; assumption.
    + apply IHo; [inversion HF2; assumption|now injection Hl].
  - intros Hin. apply Hni. clear - Hin Hl. revert vs Hl Hin. induction order as [|b order IHo]; intros [|w vs] Hl Hin; try discriminate; cbn in *; [tauto|].
    destruct Hin as [->|Hin]; [now left|]. right. eapply IHo; [|exact Hin]. now injection Hl.
Qed.
Lemma update_range (l : list (Z * Z)) : forall L, Forall (fun x => 0 <= x <= 7) L -> Forall (fun sv => 0 <= snd sv <= 7) l ->
  Forall (fun x => 0 <= x <= 7) (fold_left (fun l (sv : Z * Z) => nth_update l (Z.to_nat (fst sv)) (snd sv)) l L).
Proof.
  induction l as [|[a v] l IH]; intros L HL HF; cbn [fold_left fst snd]; [exact HL|]. inversion HF as [|? ? Hv HF']; subst. apply IH; auto.
  clear - HL Hv. cbn [snd] in Hv. generalize (Z.to_nat a) as i. induction HL as [|x t Hx Ht IHt]; intros [|i]; cbn [nth_update]; constructor; auto.
Qed.
Lemma order_facts : NoDup length_order /\ Forall (fun s => 0 <= s < 19) length_order.
Proof.
  split; [|unfold length_order; repeat constructor; lia].
  unfold length_order. repeat (constructor; [cbn; lia|]). constructor.
Qed.
Lemma nodup_l {A} (T U : list A) : NoDup (T ++ U) -> NoDup T.
Proof.
  intros HN. induction T as [|a T IH]; [constructor|]. cbn [app] in HN. inversion HN as [|? ? Hni HN']; subst.
  constructor; [intros H; apply Hni, in_or_app; now left|auto].
Qed.
Lemma nodup_both {A} (T U : list A) s : NoDup (T ++ U) -> In s T -> In s U -> False.
Proof.
  intros HN HT HU. induction T as [|a T IH]; [destruct HT|]. cbn [app] in HN. inversion HN as [|? ? Hni HN']; subst.
  destruct HT as [->|HT]; [apply Hni, in_or_app; now right|]. now apply IH.
Qed.
Lemma combine_in (T vs : list Z) s : In s (map fst (combine T vs)) -> In s T.
Proof.
  revert vs. induction T as [|a T IH]; intros [|v vs] H; cbn in *; try tauto. destruct H as [->|H]; [now left|]. right. eauto.
Qed.
Lemma combine_fst (P : Z -> Prop) (T vs : list Z) : Forall P T -> Forall (fun sv => P (fst sv)) (combine T vs).
Proof. intros H. revert vs. induction H as [|a T Ha HT IH]; intros [|v vs]; cbn [combine]; constructor; auto. Qed.
Lemma combine_snd (P : Z -> Prop) (T vs : list Z) : Forall P vs -> Forall (fun sv => P (snd sv)) (combine T vs).
Proof. intros H. revert T. induction H as [|a vs Ha HT IH]; intros [|v T]; cbn [combine]; constructor; auto. Qed.
Lemma code_lengths_sent nc b : 4 <= nc <= 19 -> 3 * nc <= len b -> exists CL b', len CL = 19 /\ Forall (fun x => 0 <= x <= 7) CL /\
  (forall i, nc <= i -> forall s, znth length_order i = Some s -> code_len CL s = 0) /\
  b = flat_map (fun s => lsb_bits 3 (code_len CL s)) (ztake nc length_order) ++ b'.
Proof.
  intros Hnc Hb. destruct order_facts as [HN HO].
  destruct (three_bits (Z.to_nat nc) b ltac:(lia)) as (vs & b' & Hl & HF & -> & _).
  rewrite <- (ztake_zdrop _ nc length_order) in HN, HO. apply Forall_app in HO. destruct HO as [HO1 HO2].
  assert (len (ztake nc length_order) = nc) as Ht by (rewrite len_ztake; change (len length_order) with 19; lia).
  set (T := ztake nc length_order) in *.
  pose proof (nodup_l _ _ HN) as HNT.
  assert (length T = length vs) as HTl by (unfold len in Ht; lia).
  exists (sent_lengths T vs), b'. unfold sent_lengths. split; [rewrite update_len; reflexivity|]. split; [|split].
  - apply update_range; [repeat constructor; lia|]. now apply (combine_snd (fun x => 0 <= x <= 7)).
  - intros i Hi s Hs.
    assert (In s (zdrop nc length_order)) as HinD.
    { unfold znth in Hs. replace (i <? 0) with false in Hs by lia. rewrite <- (ztake_zdrop _ nc length_order) in Hs. fold T in Hs.
      rewrite nth_error_app2 in Hs by (unfold len in Ht; lia). eapply nth_error_In; exact Hs. }
    rewrite update_out.
    + unfold code_len. apply nth_repeat.
    + rewrite Forall_forall in HO2. apply HO2 in HinD. lia.
    + now apply (combine_fst (fun s => 0 <= s < 19)).
    + intros Hin. apply combine_in in Hin. exact (nodup_both _ _ _ HN Hin HinD).
  - f_equal. rewrite <- (update_all T vs (repeat 0 19) HNT HTl HO1) at 1. rewrite flat_map_concat_map, map_map, <- flat_map_concat_map. reflexivity.
Qed.
Lemma code_valid_dec L : lens_ok L -> valid_code L \/ ~ valid_code L.
Proof.
  intros HL. unfold valid_code. destruct (Z.eq_dec (zsum (map space_of L)) (2 ^ 15)); [left; auto|].
  destruct (Z_le_gt_dec (used_symbols L) 1); [left; auto|]. right. intros [_ [H|H]]; [congruence|lia].
Qed.
Lemma lengths_in_range CL l b r : lengths_bits CL l b r -> lens_ok l -> lens_ok r.
Proof.
  assert (forall x n, 0 <= x <= 15 -> Forall (fun y => 0 <= y <= 15) (zrepeat x n)) as HR.
  { intros x n Hx. unfold zrepeat. induction (Z.to_nat n); cbn [repeat]; constructor; auto. }
  unfold lens_ok.
  induction 1 as [l|l x b r Hx Hin H IH|l x e b r Hin He H IH|l e b r Hin He H IH|l e b r Hin He H IH]; intros F; auto; apply IH.
  - apply Forall_app. split; [exact F|]. constructor; [lia|constructor].
  - apply Forall_app in F. destruct F as [F1 F2]. apply Forall_app. split; [exact F1|]. apply Forall_app. split; [exact F2|].
    apply HR. inversion F2; assumption.
  - apply Forall_app. split; [exact F|]. apply HR. lia.
  - apply Forall_app. split; [exact F|]. apply HR. lia.
Qed.
Lemma dynamic_cases pos out b :
  (exists b1 r more, block_bits pos out b1 r /\ lsb_bits 2 2 ++ b = b1 ++ more) \/
  (exists r, block_fault pos out (lsb_bits 2 2 ++ b) r) \/ block_senseless out (lsb_bits 2 2 ++ b).
Proof.
  destruct (Z_lt_ge_dec (len b) 14) as [H14|H14]; [right; left; exists out; now apply Dynamic_counts_cut|].
  destruct (cut_bits 5 b ltac:(lia)) as (v1 & b1 & -> & Hv1 & Hb1).
  destruct (cut_bits 5 b1 ltac:(lia)) as (v2 & b2 & -> & Hv2 & Hb2).
  destruct (cut_bits 4 b2 ltac:(lia)) as (v3 & b3 & -> & Hv3 & Hb3).
  change (Z.to_nat 5) with 5%nat in *. change (Z.to_nat 4) with 4%nat in *. change (2 ^ 5) with 32 in *. change (2 ^ 4) with 16 in *.
  assert (exists nl, v1 = nl - 257) as (nl & ->) by (exists (v1 + 257); lia).
  assert (exists nd, v2 = nd - 1) as (nd & ->) by (exists (v2 + 1); lia).
  assert (exists nc, v3 = nc - 4) as (nc & ->) by (exists (v3 + 4); lia).
  assert (257 <= nl <= 288) as Hnl by lia. assert (1 <= nd <= 32) as Hnd by lia. assert (4 <= nc <= 19) as Hnc4 by lia.
  destruct (Z_lt_ge_dec (len b3) (3 * nc)) as [H3|H3]; [right; left; exists out; now apply Dynamic_code_lengths_cut|].
  destruct (code_lengths_sent nc b3 Hnc4 ltac:(lia)) as (CL & b4 & HC & H7 & Hz & ->).
  set (h := lsb_bits 5 (nl - 257) ++ lsb_bits 5 (nd - 1) ++ lsb_bits 4 (nc - 4) ++ flat_map (fun s => lsb_bits 3 (code_len CL s)) (ztake nc length_order)).
  assert (dynamic_start nl nd nc CL h) as HS by (unfold dynamic_start; auto 8).
  replace (lsb_bits 5 (nl - 257) ++ lsb_bits 5 (nd - 1) ++ lsb_bits 4 (nc - 4) ++ flat_map (fun s => lsb_bits 3 (code_len CL s)) (ztake nc length_order) ++ b4)
    with (h ++ b4) by (unfold h; now rewrite <- !app_assoc).
  assert (lens_ok CL) as LC by (eapply Forall_impl; [|exact H7]; intros; cbv beta in *; lia).
  destruct (code_valid_dec CL LC) as [VC|VC]; [|right; left; exists out; eapply Dynamic_code_length_code_invalid; eauto].
  destruct (lengths_cases CL (nl + nd) VC HC (length b4) b4 [] ltac:(lia)) as [(bl & l & more & HL & Hl & ->)|(bl & l & b & HL & Hl & -> & HF)].
  { rewrite len_nil. lia. }
  2:{ right. destruct HF as [HF|HF]; [left; exists out; eapply Dynamic_lengths_fault; eauto|right; eapply Lengths_senseless; eauto]. }
  rewrite <- (ztake_zdrop _ nl l) in HL. set (LL := ztake nl l) in *. set (DL := zdrop nl l) in *.
  assert (len LL = nl) as EL by (unfold LL; rewrite len_ztake; lia). assert (len DL = nd) as ED by (unfold DL; rewrite len_zdrop; lia).
  clearbody LL DL. clear Hl l.
  pose proof (lengths_in_range _ _ _ _ HL ltac:(constructor)) as R. apply Forall_app in R. destruct R as [R0 R1].
  destruct (code_valid_dec LL R0) as [V0|V0]; [|right; left; exists out; eapply Dynamic_code_invalid; eauto].
  destruct (code_valid_dec DL R1) as [V1|V1]; [|right; left; exists out; eapply Dynamic_code_invalid; eauto].
  destruct (tokens_cases LL DL V0 V1 ltac:(lia) ltac:(lia) (length more) more out ltac:(lia)) as [(ts & b & r & m & Hts & HX & ->)|(ts & bs & b & r & Hts & HX & -> & [HC2|HC2])].
  - left. exists (lsb_bits 2 2 ++ h ++ bl ++ b), r, m. split; [|now rewrite <- !app_assoc].
    unfold h. rewrite <- !app_assoc. eapply Dynamic_block; eauto.
  - right; left. exists r. eapply Dynamic_cut; eauto.
  - right; right. eapply Dynamic_senseless; eauto.
Qed.
Lemma fixed_cases pos out b :
  (exists b1 r more, block_bits pos out b1 r /\ lsb_bits 2 1 ++ b = b1 ++ more) \/
  (exists r, block_fault pos out (lsb_bits 2 1 ++ b) r) \/ block_senseless out (lsb_bits 2 1 ++ b).
Proof.
  destruct fixed_valid as (V0 & V1 & L0 & L1).
  destruct (tokens_cases _ _ V0 V1 L0 L1 (length b) b out ltac:(lia)) as [(ts & b1 & r & m & Hts & HX & ->)|(ts & bs & b1 & r & Hts & HX & -> & [HC2|HC2])].
  - left. exists (lsb_bits 2 1 ++ b1), r, m. split; [econstructor; eauto|now rewrite <- app_assoc].
  - right; left. exists r. econstructor; eauto.
  - right; right. econstructor; eauto.
Qed.
Lemma block_cases pos out bits : (pos + len bits) mod 8 = 0 ->
  (exists b r more, block_bits pos out b r /\ bits = b ++ more) \/
  (exists r, block_fault pos out bits r) \/ block_senseless out bits.
Proof.
  intros Hpos. destruct (Z_lt_ge_dec (len bits) 2) as [H2|H2]; [right; left; exists out; now apply Type_cut|].
  destruct (cut_bits 2 bits ltac:(lia)) as (ty & b & -> & Hty & Hb). change (Z.to_nat 2) with 2%nat in *. change (2 ^ 2) with 4 in Hty.
  rewrite len_app, lsb_len in Hpos. change (Z.of_nat 2) with 2 in Hpos.
  assert (ty = 0 \/ ty = 1 \/ ty = 2 \/ ty = 3) as [-> |[-> |[-> | ->]]] by lia.
  - destruct (stored_cases pos out b) as [H|H]; auto. rewrite <- Hpos. f_equal. lia.
  - apply fixed_cases.
  - apply dynamic_cases.
  - right; left. exists out. apply Type_reserved.
Qed.
Lemma stream_cases : forall n pos out bits, (length bits <= n)%nat -> (pos + len bits) mod 8 = 0 ->
  (exists b r more, stream_bits pos out b r /\ bits = b ++ more) \/
  (exists r, stream_fault pos out bits r) \/ stream_senseless pos out bits.
Proof.
  induction n as [|n IH]; intros pos out bits Hn Hpos; destruct bits as [|last bits];
    try (right; left; exists out; apply No_block); [cbn in Hn; lia|].
  rewrite len_cons in Hpos. cbn [length] in Hn.
  destruct (block_cases (pos + 1) out bits) as [(b & r & more & HB & ->)|[(r & HB)|HB]].
  - rewrite <- Hpos. f_equal. lia.
  - destruct last; [left; exists (true :: b), r, more; split; [now constructor|reflexivity]|].
    rewrite app_length in Hn. rewrite len_app in Hpos.
    destruct (IH (pos + 1 + len b) r more ltac:(lia)) as [(b2 & r2 & m2 & HS & ->)|[(r2 & HS)|HS]].
    + rewrite <- Hpos. f_equal. lia.
    + left. exists (false :: b ++ b2), r2, m2. split; [econstructor; eauto|]. cbn [app]. now rewrite <- app_assoc.
    + right; left. exists r2. eapply Fault_later; eauto.
    + right; right. eapply Senseless_later; eauto.
  - right; left. exists r. now apply Fault_here.
  - right; right. now apply Senseless_here.
Qed.
Theorem every_stream z : bytes_ok z -> (exists b, deflate_prefix z b) \/ faulty z \/ senseless z.
Proof.
  intros Hz. destruct (stream_cases (length (bits_of z)) 0 [] (bits_of z) ltac:(lia)) as [(b & r & more & HS & E)|[(r & HS)|HS]].
  - rewrite bits_of_len, Z.add_0_l, Z.mul_comm. apply Z_mod_mult.
  - left. exists r. split; [exact Hz|]. exists b, more. auto.
  - right; left. now exists r.
  - right; right. exact HS.
Qed.
