(** Runs of tinfl that cannot end well. *)
From Coq Require Import ZArith List Bool Lia.
From Verif Require Import Base BaseFacts Arr DeflateSpec DeflateFaults Tinfl BitFacts HuffFacts HuffBuild
  InflCopy InflBits InflRun InflBlocks.
Import ListNotations.
Open Scope Z_scope.

Section Doom.
(** what is produced before the fault *)
Variable D : bytes.
Local Notation st := (InflBits.st D (fun _ => 0)).
Local Notation leads := (InflBits.leads D (fun _ => 0)).
(** all input was offered: the run fails, or asks for more, and would again *)
Inductive doomed {A} : Z -> res A -> Prop :=
| doomed_fail q s bits out : st q [] s bits out -> doomed q (RFailed s)
| doomed_more q s k bits out : st q [] s bits out -> len out < len D -> ti_cur s = 32768 ->
    doomed (len out) (k (mk_tst (ti_in s) (ti_bb s) (ti_nb s) (ti_dict s) 0)) -> doomed q (RMore s k)
| doomed_need q s k bits out s2 k2 : st q [] s bits out -> ti_in s = [] ->
    k (mk_tst [] (ti_bb s) (ti_nb s) (ti_dict s) (if ti_cur s =? 32768 then 0 else ti_cur s)) = RNeed s2 k2 ->
    ti_cur s2 = (if ti_cur s =? 32768 then 0 else ti_cur s) -> ti_in s2 = [] -> doomed q (RNeed s k).
Lemma doomed_bind {A B} (m : T A) (g : A -> T B) q s : doomed q (m s) -> doomed q (tbind m g s).
Proof.
  intros H. unfold tbind. induction H as [q s' bits out S|q s' k bits out S Hl Hc H IH|q s' k bits out s2 k2 S Hi E Hc Hi2]; cbn [res_bind].
  - eapply doomed_fail; eauto.
  - eapply doomed_more; eauto.
  - eapply doomed_need; eauto. cbv beta. rewrite E. reflexivity.
Qed.
Lemma leads_doomed {A B} P (m : T A) (g : A -> T B) q s : leads P q [] (m s) ->
  (forall q' a s', P q' [] a s' -> doomed q' (g a s')) -> doomed q (tbind m g s).
Proof.
  intros H Hg. unfold tbind. remember [] as F eqn:EF. revert EF.
  induction H as [q F a s' HP|q F s' k bits out S Hl Hc H IH|q F s' k bits out S Hi HF H IH]; intros EF; subst F; cbn [res_bind].
  - now apply Hg.
  - eapply doomed_more; eauto. specialize (IH [] [] eq_refl Hg eq_refl). now rewrite app_nil_r in IH.
  - congruence.
Qed.
Lemma reads_doomed {A B} (m : T A) (g : A -> T B) a bits rest out q s :
  reads D (fun _ => 0) m bits a rest -> st q [] s bits out ->
  (forall q' s', st q' [] s' rest out -> doomed q' (g a s')) -> doomed q (tbind m g s).
Proof.
  intros R S Hg. eapply leads_doomed; [apply R; [apply len_nonneg|exact S]|]. intros q' a' s' [-> S']. auto.
Qed.
Lemma no_input q s bits out : st q [] s bits out -> len bits = ti_nb s + 8 * len (ti_in s).
Proof.
  intros ((Hn & _) & (_ & E & _) & _). rewrite <- E. unfold ahead. rewrite app_nil_r, len_app, bits_of_len, lsb_len. lia.
Qed.

Variable f : nat.
Hypothesis Hf : (2 <= f)%nat.
Lemma get_byte_doomed q s bits out : st q [] s bits out -> ti_in s = [] -> doomed q (get_byte f s).
Proof.
  intros S Ei. destruct f as [|[|f']]; [lia|lia|]. cbn [get_byte]. rewrite Ei.
  eapply doomed_need; [exact S|exact Ei|cbn [get_byte ti_in]; reflexivity|reflexivity|reflexivity].
Qed.
Lemma load_doomed {A} (g : unit -> T A) q s bits out : st q [] s bits out -> ti_nb s <= 53 ->
  (forall s', st q [] s' bits out -> ti_nb s' = ti_nb s + 8 -> 8 <= len bits - ti_nb s -> doomed q (g tt s')) ->
  doomed q (tbind (get_byte f) (fun c => tbind (add_bits c 8) g) s).
Proof.
  intros S H53 H. destruct (ti_in s) as [|x t] eqn:Ei; [apply doomed_bind; eapply get_byte_doomed; eauto|].
  destruct (load_now 0 [] s bits _ _ (at_st _ _ _ _ _ _ _ S)) as (s1 & E1 & A1 & N1); [lia|congruence|].
  unfold load, tbind in E1. rewrite (get_byte_ok 0 s x t Ei) in E1. cbn [res_bind] in E1.
  unfold tbind. rewrite (get_byte_ok f s x t Ei). cbn [res_bind]. rewrite E1. cbn [res_bind]. apply H; [|exact N1|].
  - eapply st_at; eauto. apply len_nonneg.
  - rewrite (no_input _ _ _ _ S), Ei, len_cons. pose proof (len_nonneg _ t). lia.
Qed.
Lemma need_bits_doomed n : forall turns q s bits out, st q [] s bits out -> n <= 16 -> len bits < n ->
  n - ti_nb s <= 8 * Z.of_nat turns -> doomed q (need_bits turns f n s).
Proof.
  induction turns as [|turns IH]; intros q s bits out S Hn Hl Ht.
  { pose proof (no_input _ _ _ _ S). pose proof (len_nonneg _ (ti_in s)). lia. }
  pose proof (no_input _ _ _ _ S). pose proof (len_nonneg _ (ti_in s)).
  rewrite (need_bits_unfold f). eapply load_doomed; eauto; [lia|]. intros s1 S1 N1 Hl1.
  unfold tbind at 1. cbn [num_bits res_bind]. replace (ti_nb s1 <? n) with true by lia.
  eapply IH; eauto. lia.
Qed.
Lemma get_bits_doomed n q s bits out : st q [] s bits out -> n <= 16 -> len bits < n -> doomed q (get_bits f n s).
Proof.
  intros S Hn Hl. unfold get_bits, tbind at 1. cbn [num_bits res_bind].
  pose proof (no_input _ _ _ _ S). pose proof (len_nonneg _ (ti_in s)).
  replace (ti_nb s <? n) with true by lia. apply doomed_bind. eapply need_bits_doomed; eauto.
  destruct S as ((? & _) & _). lia.
Qed.
(** ** inside a codeword *)
Lemma huff_doomed L h q s bits out : lens_ok L -> kraft L <= 2 ^ 15 -> len L <= 512 -> table_ok L h ->
  stops_inside L bits -> st q [] s bits out -> doomed q (huff_decode f h s).
Proof.
  intros HL HK H512 HT (y & more & Hy & Hm & Ew) S.
  pose proof (l_pos L HL y Hy) as Lp. pose proof (w_length L y) as Wl.
  assert (len bits < code_len L y) as Hlb.
  { apply (f_equal len) in Ew. unfold len in Ew at 1. rewrite Wl, len_app in Ew.
    assert (0 < len more) by (destruct more; [congruence|rewrite len_cons; pose proof (len_nonneg _ more); lia]). lia. }
  pose proof (no_input _ _ _ _ S) as HN. pose proof (len_nonneg _ (ti_in s)) as Hi0.
  unfold huff_decode, tbind at 1. cbn [num_bits res_bind].
  replace (ti_nb s <? 15) with true by lia. apply doomed_bind.
  destruct (ti_in s) as [|a [|b t]] eqn:Ei.
  3:{ rewrite !len_cons in HN. pose proof (len_nonneg _ t). assert (0 <= ti_nb s) by apply S. lia. }
  all: clear Ei HN Hi0; revert q s S.
  all: assert (forall turns q s, st q [] s bits out -> 15 <= 8 * Z.of_nat turns + ti_nb s -> doomed q (huff_fill turns f h s)) as HH;
    [|intros q s S; apply HH; [exact S|assert (0 <= ti_nb s) by apply S; lia]].
  all: induction turns as [|turns IH]; intros q s S Ht;
    [pose proof (no_input _ _ _ _ S); pose proof (len_nonneg _ (ti_in s)); lia|].
  all: rewrite (huff_fill_unfold h f turns); unfold tbind at 1; cbn [bit_buf res_bind];
    unfold tbind at 1; cbn [num_bits res_bind]; unfold tbind at 1;
    pose proof (no_input _ _ _ _ S) as HN; pose proof (len_nonneg _ (ti_in s)) as Hi0; assert (0 <= ti_nb s) as N0 by apply S.
  all: rewrite (enough_no L h HL H512 HT y Hy HK); [|lia|].
  1,3: cbn [res_bind]; eapply load_doomed; eauto; [lia|]; intros s1 S1 N1 Hl1;
    unfold tbind at 1; cbn [num_bits res_bind]; replace (ti_nb s1 <? 15) with true by lia; apply IH; [exact S1|lia].
  all: destruct S as (_ & (_ & Ea & _) & _); unfold ahead in Ea; rewrite Ew, <- Ea, !firstn_app, lsb_length, Nat.sub_diag;
    cbn [firstn]; rewrite app_length, lsb_length; replace (Z.to_nat (ti_nb s) - _)%nat with O by lia; cbn [firstn];
    rewrite !app_nil_r, firstn_all2 by (rewrite lsb_length; lia); reflexivity.
Qed.
End Doom.

(** ** Compressed data *)
Section Codes.
Variable D : bytes.
Local Notation st := (InflBits.st D (fun _ => 0)).
Local Notation leads := (InflBits.leads D (fun _ => 0)).
Local Notation doomed := (doomed D).
Variables (LL DL : list Z) (h0 h1 : huff).
Hypothesis HLL : valid_code LL.
Hypothesis HDL : valid_code DL.
Hypothesis H288 : len LL <= 288.
Hypothesis H32 : len DL <= 32.
Hypothesis T0 : table_ok LL h0.
Hypothesis T1 : table_ok DL h1.
Variable f : nat.
Hypothesis Hf : (2 <= f)%nat.

(** the rest of a match, cut *)
Definition match_cut (k : Z) (tail : list bool) : Prop :=
  exists lb lx, znth length_codes k = Some (lb, lx) /\
    (len tail < lx \/
     exists le b, tail = le ++ b /\ len le = lx /\
       (stops_inside DL b \/
        exists j db dx e, znth distance_codes j = Some (db, dx) /\ in_code DL j /\ len e < dx /\ b = codeword DL j ++ e)).
Lemma bits_lsb (w : list bool) n : len w = n -> w = lsb_bits (Z.to_nat n) (bval w) /\ 0 <= bval w < 2 ^ n.
Proof.
  intros <-. pose proof (bval_range w) as B. unfold len. rewrite Nat2Z.id. split; [symmetry; apply lsb_bval|exact B].
Qed.
Lemma extra_doomed x q s bits out : st q [] s bits out -> 0 <= x <= 16 -> len bits < x ->
  doomed q ((if x =? 0 then tret 0 else get_bits f x) s).
Proof.
  intros S Hx Hl. replace (x =? 0) with false by (pose proof (len_nonneg _ bits); lia). eapply get_bits_doomed; eauto. lia.
Qed.
Lemma do_match_doomed k tail q s out : match_cut k tail -> st q [] s tail out -> doomed q (do_match f h1 (257 + k) s).
Proof.
  intros (lb & lx & Hk & HC) S.
  destruct (length_tables _ _ _ Hk) as (E1 & E2 & Hk29 & Hlx & Hlb).
  pose proof (valid_kraft DL HDL) as KD.
  unfold do_match. replace (257 + k - 257) with k by lia.
  eapply reads_doomed; [apply reads_lift; exact E1|exact S|]. clear S s q. intros q s S.
  eapply reads_doomed; [apply reads_lift; exact E2|exact S|]. clear S s q. intros q s S.
  destruct HC as [HC|(le & b & -> & Hle & HC)].
  { apply doomed_bind. eapply extra_doomed; eauto; lia. }
  destruct (bits_lsb le lx Hle) as [Ele Rle]. rewrite Ele in S.
  eapply reads_doomed; [apply extra_ok; [exact Hf|lia|exact Rle]|exact S|]. clear S s q. intros q s S.
  destruct HC as [HC|(j & db & dx & e & Hj & Hin & Hle2 & ->)].
  { apply doomed_bind. eapply (huff_doomed D f Hf DL h1); eauto; [apply HDL|lia]. }
  destruct (distance_tables _ _ _ Hj) as (E3 & E4 & Hdx & Hdb & Hd2).
  eapply reads_doomed; [apply (huff_decode_ok DL h1) with (s := j); auto; [apply HDL|lia]|exact S|]. clear S s q. intros q s S.
  eapply reads_doomed; [apply reads_lift; exact E3|exact S|]. clear S s q. intros q s S.
  eapply reads_doomed; [apply reads_lift; exact E4|exact S|]. clear S s q. intros q s S.
  apply doomed_bind. eapply extra_doomed; eauto; lia.
Qed.
(** what follows a symbol that is not a literal *)
Definition cut_rest (b : list bool) (ts : list token) (sym : Z) (tail : list bool) : Prop :=
  (exists k, ts = [] /\ sym = 257 + k /\ match_cut k tail) \/
  (exists k lb lx le j db dx de ts' bs',
     znth length_codes k = Some (lb, lx) /\ 0 <= le < 2 ^ lx /\
     znth distance_codes j = Some (db, dx) /\ 0 <= de < 2 ^ dx /\ in_code DL j /\
     sym = 257 + k /\ ts = Copy (lb + le) (db + de) :: ts' /\
     tail = lsb_bits (Z.to_nat lx) le ++ codeword DL j ++ lsb_bits (Z.to_nat dx) de ++ bs' ++ b /\
     tokens_so_far LL DL ts' bs').
Lemma cut_first ts bs b : tokens_so_far LL DL ts bs -> token_cut LL DL b ->
  (ts = [] /\ bs = [] /\ stops_inside LL b) \/
  exists sym tail, bs ++ b = codeword LL sym ++ tail /\ in_code LL sym /\
    ((0 <= sym < 256 /\ exists ts' bs', ts = Lit sym :: ts' /\ tail = bs' ++ b /\ tokens_so_far LL DL ts' bs') \/
     (257 <= sym /\ cut_rest b ts sym tail)).
Proof.
  intros H HC. destruct H as [|t b0 ts bs Ht Hts].
  - destruct HC as [b HS|k lb lx e Hk Hin He|k lb lx le b Hk Hin Hle HS|k lb lx le j db dx e Hk Hin Hle Hj Hij He].
    { left. auto. }
    all: right; exists (257 + k); pose proof (znth_some _ _ _ _ Hk).
    + exists e. split; [reflexivity|]. split; [assumption|]. right. split; [lia|]. left. exists k.
      split; [reflexivity|]. split; [reflexivity|]. exists lb, lx. auto.
    + exists (le ++ b). split; [reflexivity|]. split; [assumption|]. right. split; [lia|]. left. exists k.
      split; [reflexivity|]. split; [reflexivity|]. exists lb, lx. split; [assumption|]. right. exists le, b. auto.
    + exists (le ++ codeword DL j ++ e). split; [reflexivity|]. split; [assumption|]. right. split; [lia|]. left. exists k.
      split; [reflexivity|]. split; [reflexivity|]. exists lb, lx. split; [assumption|]. right. eexists le, _.
      split; [reflexivity|]. split; [assumption|]. right. exists j, db, dx, e. auto.
  - right. destruct Ht as [c Hc Hin|k lb lx le j db dx de Hk Hle Hin Hj Hde Hin2].
    + exists c, (bs ++ b). split; [now rewrite <- app_assoc|]. split; [assumption|]. left. split; [assumption|]. eauto.
    + exists (257 + k), (lsb_bits (Z.to_nat lx) le ++ codeword DL j ++ lsb_bits (Z.to_nat dx) de ++ bs ++ b).
      split; [now rewrite <- !app_assoc|]. split; [assumption|]. right.
      pose proof (znth_some _ _ _ _ Hk). split; [lia|]. right.
      exists k, lb, lx, le, j, db, dx, de, ts, bs. auto 12.
Qed.
Definition codes_doom turns := forall q s ts bs b out r,
  tokens_so_far LL DL ts bs -> expands out ts r -> prefix r D -> token_cut LL DL b -> st q [] s (bs ++ b) out ->
  (length ts < turns)%nat -> doomed q (codes turns f h0 h1 s).
Lemma after_doomed turns e sym q s ts tail b out r : codes_doom turns -> token_cut LL DL b ->
  Z.land e 511 = sym -> 257 <= sym -> cut_rest b ts sym tail -> expands out ts r -> prefix r D ->
  st q [] s tail out -> (length ts <= turns)%nat ->
  doomed q (after h0 h1 f turns e s).
Proof.
  intros IH HC He Hge HN HX HP S Ht. unfold after. rewrite He. replace (sym =? 256) with false by lia.
  destruct HN as [(k & -> & -> & HM)|(k & lb & lx & le & j & db & dx & de & ts' & bs' & Hk & Hle & Hj & Hde & Hin & -> & -> & -> & Hts)].
  - apply doomed_bind. eapply do_match_doomed; eauto.
  - inversion HX as [| |? ? ? ? ? Hd HX']; subst.
    eapply leads_doomed.
    + eapply (do_match_ok D (fun _ => 0) slow_0 DL h1) with (rest := bs' ++ b); eauto; [apply len_nonneg|].
      eapply prefix_trans; [|exact HP]. now apply expands_prefix in HX'.
    + intros q' [] s' S'. cbv beta in S'. eapply IH; eauto; cbn [length] in Ht; lia.
Qed.
Theorem codes_doomed : forall turns, codes_doom turns.
Proof.
  pose proof (valid_kraft LL HLL) as KL.
  assert (len LL <= 512) as H512 by lia. assert (lens_ok LL) as LO by apply HLL.
  induction turns as [|turns IH]; intros q s ts bs b out r Hts HX HP HC S Ht; [lia|].
  assert (forall q s, stops_inside LL b -> st q [] s b out ->
    doomed q ((tbind (huff_decode f h0) (fun c => if c >=? 256 then after h0 h1 f turns c
         else tbind (put_byte f (u8 c)) (fun _ => codes turns f h0 h1))) s)) as Hstop.
  { intros q0 s0 H S0. apply doomed_bind. eapply (huff_doomed D f Hf LL h0); eauto. }
  cbn [codes].
  destruct (cut_first ts bs b Hts HC) as [(-> & -> & HS)|(sym & tail & Eb & Hin & Hcase)].
  { cbn [app] in S.
    replace ((len (ti_in s) <? 4) || (TINFL_LZ_DICT_SIZE - ti_cur s <? 2)) with true; [now apply Hstop|].
    pose proof (no_input _ _ _ _ _ S) as HN. destruct HS as (y & more & Hy & Hm & Ew).
    pose proof (l_pos LL LO y Hy) as Lp. pose proof (w_length LL y) as Wl.
    apply (f_equal (@length bool)) in Ew. rewrite Wl, app_length in Ew. assert (0 <= ti_nb s) by apply S. unfold len in *. lia. }
  rewrite Eb in S. assert (0 <= sym < 288) as Hsym by (destruct Hin; lia).
  destruct ((len (ti_in s) <? 4) || (TINFL_LZ_DICT_SIZE - ti_cur s <? 2)) eqn:Epath.
  - eapply reads_doomed; [apply (huff_decode_ok LL h0) with (s := sym); auto|exact S|].
    clear S s Epath q. intros q s S.
    destruct Hcase as [(Hlit & ts' & bs' & -> & -> & Hts')|(Hge & HN)].
    + replace (sym >=? 256) with false by lia.
      inversion HX as [|? ? ? ? HX'|]; subst.
      assert (u8 sym = sym) as -> by (apply Z.mod_small; lia).
      eapply leads_doomed; [apply put_byte_ok; [exact slow_0|exact Hf|exact S|eapply prefix_trans; [eapply expands_prefix; exact HX'|exact HP]]|].
      intros q' [] s' S'. cbv beta in S'. eapply IH; eauto; cbn [length] in Ht; lia.
    + replace (sym >=? 256) with true by lia.
      apply (after_doomed turns sym sym q s ts tail b out r); auto; [|lia].
      change 511 with (Z.ones 9). rewrite Z.land_ones by lia. apply Z.mod_small. change (2 ^ 9) with 512. lia.
  - unfold TINFL_LZ_DICT_SIZE in Epath.
    unfold tbind at 1. cbn [num_bits res_bind].
    assert (exists s1, (if ti_nb s <? 30 then take_word else tret tt) s = RDone tt s1 /\
              at_bits [] s1 (codeword LL sym ++ tail) (ti_dict s) (ti_cur s) /\ 30 <= ti_nb s1) as (s1 & E1 & A1 & N1).
    { destruct (ti_nb s <? 30) eqn:E30.
      - destruct (take_word_ok f Hf [] s _ _ _ (at_st _ _ _ _ _ _ _ S)) as (s1 & E & A & N); [lia|lia|].
        exists s1. split; [exact E|]. split; [exact A|]. destruct S as ((? & _) & _). lia.
      - exists s. split; [reflexivity|]. split; [eapply at_st; eauto|lia]. }
    unfold tbind at 1. rewrite E1. cbn [res_bind].
    pose proof (l_pos LL LO sym Hin) as Lp.
    destruct (fast_entry_ok LL h0 LO H512 T0 sym Hin [] s1 tail _ _ A1 ltac:(lia)) as (e & s2 & E2 & A2 & N2 & _ & He & Hm).
    unfold tbind at 1. rewrite E2. cbn [res_bind].
    rewrite (land_256 f Hf e sym) by (auto; lia).
    pose proof (st_at _ _ _ _ _ _ _ _ _ S A2 (len_nonneg _ _)) as S2.
    destruct Hcase as [(Hlit & ts' & bs' & -> & -> & Hts')|(Hge & HN)].
    + replace (256 <=? sym) with false by lia.
      inversion HX as [|? ? ? ? HX'|]; subst.
      destruct (cut_first ts' bs' b Hts' HC) as [(-> & -> & HS)|(sym2 & tail2 & Eb2 & Hin2 & Hcase2)].
      { exfalso. cbn [app] in S2. pose proof (no_input _ _ _ _ _ S2) as HN. destruct HS as (y & more & Hy & Hmm & Ew).
        pose proof (l_pos LL LO y Hy) as Lp2. pose proof (w_length LL y) as Wl.
        apply (f_equal (@length bool)) in Ew. rewrite Wl, app_length in Ew. pose proof (len_nonneg _ (ti_in s2)). 
        assert (0 < length more)%nat by (destruct more; [congruence|cbn; lia]). unfold len in *. lia. }
      assert (0 <= sym2 < 288) as Hsym2 by (destruct Hin2; lia).
      rewrite Eb2 in A2. pose proof (l_pos LL LO sym2 Hin2) as Lp2.
      destruct (fast_entry_ok LL h0 LO H512 T0 sym2 Hin2 [] s2 tail2 _ _ A2 ltac:(lia)) as (e2 & s3 & E3 & A3 & N3 & _ & He2 & Hm2).
      unfold tbind at 1. rewrite E3. cbn [res_bind].
      pose proof (st_at _ _ _ _ _ _ _ _ _ S A3 (len_nonneg _ _)) as S3.
      assert (ti_cur s3 = ti_cur s) as C3 by apply A3.
      rewrite (u8_entry f Hf e (Z.land e 511)) by auto.
      destruct (store_ok D (fun _ => 0) slow_0 f Hf q [] s3 _ _ (Z.land e 511) S3 ltac:(lia) ltac:(eapply prefix_trans; [eapply expands_prefix; exact HX'|exact HP])) as (s4 & E4 & S4 & C4).
      unfold tbind at 1. rewrite E4. cbn [res_bind].
      rewrite (land_256 f Hf e2 sym2) by (auto; lia).
      destruct Hcase2 as [(Hlit2 & ts2 & bs2 & -> & -> & Hts2)|(Hge2 & HN2)].
      * replace (256 <=? sym2) with false by lia.
        inversion HX' as [|? ? ? ? HX''|]; subst.
        rewrite (u8_entry f Hf e2 (Z.land e2 511)) by auto.
        destruct (store_ok D (fun _ => 0) slow_0 f Hf q [] s4 _ _ (Z.land e2 511) S4 ltac:(lia) ltac:(eapply prefix_trans; [eapply expands_prefix; exact HX''|exact HP])) as (s5 & E5 & S5 & C5).
        unfold tbind. rewrite E5. cbn [res_bind].
        eapply IH; eauto; cbn [length] in Ht; lia.
      * replace (256 <=? sym2) with true by lia.
        apply (after_doomed turns e2 sym2 q s4 ts' tail2 b (out ++ [Z.land e 511]) r); auto. cbn [length] in Ht. lia.
    + replace (256 <=? sym) with true by lia.
      apply (after_doomed turns e sym q s2 ts tail b out r); auto. lia.
Qed.
End Codes.
