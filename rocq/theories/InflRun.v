(** tinfl reads every valid DEFLATE stream. *)
From Coq Require Import ZArith List Bool Lia.
From Verif Require Import Base BaseFacts Arr DeflateSpec Tinfl BitFacts HuffFacts HuffBuild InflCopy InflBits.
Import ListNotations.
Open Scope Z_scope.

(** ** Runs that wait for room *)
Section Room.
Variables (D : bytes) (K : Z -> Z).
Hypothesis HK : slow K.
Local Notation st := (InflBits.st D K).
Local Notation leads := (InflBits.leads D K).
Lemma st_push q F s bits out c : st q F s bits out -> ti_cur s < 32768 -> prefix (out ++ [c]) D ->
  st q F (set_out s (arr_set (ti_dict s) (ti_cur s) c) (ti_cur s + 1)) bits (out ++ [c]).
Proof.
  intros (W & (E1 & E2 & E3) & Wi & _ & Hq) Hc Hp. split; [exact W|]. split; [|split; [|split; [exact Hp|]]].
  - split; [exact E1|]. split; [exact E2|]. etransitivity; [|exact E3]. apply HK. rewrite len_app. pose proof (len_nonneg _ [c]). lia.
  - cbn [set_out ti_dict ti_cur]. now apply win_push.
  - rewrite len_app. change (len [c]) with 1. lia.
Qed.
Variable f : nat.
Hypothesis Hf : (2 <= f)%nat.
Lemma wait_room_ok q F s bits out : st q F s bits out -> len out < len D ->
  leads (fun q' F' _ s' => st q' F' s' bits out /\ ti_cur s' < 32768 /\ ti_nb s' = ti_nb s) q F (wait_room f s).
Proof.
  intros S Hp. destruct f as [|f']; [lia|]. cbn [wait_room]. unfold TINFL_LZ_DICT_SIZE.
  assert (ti_cur s <= 32768) as Hc by apply S.
  destruct (ti_cur s >=? 32768) eqn:E.
  - eapply resume_more; eauto; [lia|]. intros q' F' s' S' C0 N0.
    destruct f' as [|f']; cbn [wait_room]; unfold TINFL_LZ_DICT_SIZE; rewrite C0; cbn [Z.geb Z.compare];
      (apply leads_done; split; [assumption|]); (split; [lia|auto]).
  - constructor. split; [assumption|]. split; [lia|auto].
Qed.
Lemma room_store c s : 0 <= ti_cur s < 32768 -> store c s = RDone tt (set_out s (arr_set (ti_dict s) (ti_cur s) c) (ti_cur s + 1)).
Proof.
  intros H. unfold store, dict_put. change TINFL_LZ_DICT_SIZE with 32768.
  now replace ((0 <=? ti_cur s) && (ti_cur s <? 32768)) with true by lia.
Qed.
Lemma put_byte_ok q F s bits out c : st q F s bits out -> prefix (out ++ [c]) D ->
  leads (fun q' F' _ s' => st q' F' s' bits (out ++ [c])) q F (put_byte f c s).
Proof.
  intros S Hp. unfold put_byte. eapply leads_bind; [apply wait_room_ok; eauto|].
  { destruct Hp as [r ->]. rewrite !len_app. change (len [c]) with 1. pose proof (len_nonneg _ r). lia. }
  intros q' F' [] s' (S' & Hc & _). rewrite room_store by (split; [apply S'|exact Hc]). constructor. now apply st_push.
Qed.
Lemma copy_slow_ok dist bits : forall n from q F s out,
  st q F s bits out -> prefix (copy n dist out) D -> 1 <= dist <= len out -> dist <= 32768 ->
  from mod 32768 = len out mod 32768 ->
  leads (fun q' F' _ s' => st q' F' s' bits (copy n dist out)) q F (copy_slow n f dist from s).
Proof.
  intros n. induction n as [|n IH]; intros from q F s out S Hp Hd Hd2 Hm; cbn [copy_slow].
  - constructor. exact S.
  - eapply leads_bind; [apply wait_room_ok; eauto|].
    { destruct Hp as [r ->]. rewrite len_app, copy_snoc_len. pose proof (len_nonneg _ r). lia. }
    intros q1 F1 [] s1 (S1 & Hc & _).
    change (TINFL_LZ_DICT_SIZE - 1) with (Z.ones 15). rewrite Z.land_ones by lia. change (2 ^ 15) with 32768.
    unfold tbind. 
    replace ((from - dist) mod 32768) with ((len out - dist) mod 32768)
      by (rewrite (Zminus_mod (len out)), <- Hm, <- Zminus_mod; reflexivity).
    destruct S1 as (W1 & E1 & Wi & Hp1). rewrite (win_get _ _ _ _ dist Wi Hd Hd2). rewrite room_store by (split; [apply Wi|exact Hc]). cbn [res_bind]. cbn [copy] in Hp |- *.
    apply IH; auto.
    + apply st_push; [split; auto|exact Hc|]. eapply prefix_trans; [|exact Hp]. apply copy_prefix.
    + rewrite len_app. change (len [nth (Z.to_nat (len out - dist)) out 0]) with 1. lia.
    + rewrite len_app. change (len [nth (Z.to_nat (len out - dist)) out 0]) with 1.
      rewrite Zplus_mod, Hm, <- Zplus_mod. reflexivity.
Qed.
Lemma do_copy_ok counter dist bits q F s out :
  st q F s bits out -> prefix (copy (Z.to_nat counter) dist out) D -> 3 <= counter ->
  1 <= dist <= len out -> dist <= 32768 ->
  leads (fun q' F' _ s' => st q' F' s' bits (copy (Z.to_nat counter) dist out)) q F (do_copy f counter dist s).
Proof.
  intros S Hp H3 Hd Hd2. unfold do_copy.
  change (TINFL_LZ_DICT_SIZE - 1) with (Z.ones 15). rewrite Z.land_ones by lia. change (2 ^ 15) with 32768.
  change TINFL_LZ_DICT_SIZE with 32768.
  pose proof (Z.mod_pos_bound (ti_cur s - dist) 32768 ltac:(lia)) as B.
  destruct (Z.max (ti_cur s) ((ti_cur s - dist) mod 32768) + counter >? 32768) eqn:E.
  - eapply copy_slow_ok; eauto.
    destruct S as (_ & _ & (Hc & (Hq & El) & _) & _). rewrite El, Z.add_comm, Z_mod_plus_full. reflexivity.
  - destruct S as (W & (Ea1 & Ea2 & Ea3) & Wi & _ & Hq).
    destruct (copy_fast_ok counter dist (q / 32768) (ti_dict s) (ti_cur s) out Wi H3 Hd Hd2 ltac:(lia)) as (d' & Ed & W').
    unfold tbind, tlift. rewrite Ed. cbn [res_bind fst snd]. constructor.
    split; [exact W|]. split; [split; [exact Ea1|]; split; [exact Ea2|]; etransitivity; [|exact Ea3]; apply HK; rewrite copy_snoc_len; lia|]. split; [exact W'|]. split; [exact Hp|]. rewrite copy_snoc_len. lia.
Qed.
End Room.

(** ** The tables of lengths and distances *)
Definition check_length (k : Z) : bool :=
  match znth length_codes k, znth s_length_extra k, znth s_length_base k with
  | Some (lb, lx), Some a, Some b => (a =? lx) && (b =? lb) && (0 <=? lx) && (lx <=? 5) && (3 <=? lb)
  | _, _, _ => false
  end.
Lemma length_tables k lb lx : znth length_codes k = Some (lb, lx) ->
  table_at s_length_extra k = Ok lx /\ table_at s_length_base k = Ok lb /\ 0 <= k < 29 /\ 0 <= lx <= 5 /\ 3 <= lb.
Proof.
  intros H. pose proof (znth_some _ _ _ _ H) as R. change (len length_codes) with 29 in R.
  assert (forallb check_length (zseq 0 29) = true) as C by reflexivity.
  rewrite forallb_forall in C. specialize (C k). rewrite zseq_in in C. specialize (C ltac:(lia)).
  unfold check_length in C. rewrite H in C. unfold table_at.
  destruct (znth s_length_extra k) as [a|]; [|discriminate].
  destruct (znth s_length_base k) as [b|]; [|discriminate].
  assert (a = lx /\ b = lb /\ 0 <= lx /\ lx <= 5 /\ 3 <= lb) as (-> & -> & ?) by lia.
  split; [reflexivity|]. split; [reflexivity|]. lia.
Qed.
Definition check_distance (k : Z) : bool :=
  match znth distance_codes k, znth s_dist_extra k, znth s_dist_base k with
  | Some (lb, lx), Some a, Some b =>
      (a =? lx) && (b =? lb) && (0 <=? lx) && (lx <=? 13) && (1 <=? lb) && (lb + 2 ^ lx <=? 32769)
  | _, _, _ => false
  end.
Lemma distance_tables k lb lx : znth distance_codes k = Some (lb, lx) ->
  table_at s_dist_extra k = Ok lx /\ table_at s_dist_base k = Ok lb /\ 0 <= lx <= 13 /\ 1 <= lb
  /\ lb + 2 ^ lx <= 32769.
Proof.
  intros H. pose proof (znth_some _ _ _ _ H) as R. change (len distance_codes) with 30 in R.
  assert (forallb check_distance (zseq 0 30) = true) as C by reflexivity.
  rewrite forallb_forall in C. specialize (C k). rewrite zseq_in in C. specialize (C ltac:(lia)).
  unfold check_distance in C. rewrite H in C. unfold table_at.
  destruct (znth s_dist_extra k) as [a|]; [|discriminate].
  destruct (znth s_dist_base k) as [b|]; [|discriminate].
  assert (a = lx /\ b = lb /\ 0 <= lx /\ lx <= 13 /\ 1 <= lb /\ lb + 2 ^ lx <= 32769) as (-> & -> & ?) by lia.
  split; [reflexivity|]. split; [reflexivity|]. lia.
Qed.
Lemma extra_ok D K f x v rest : (2 <= f)%nat -> 0 <= x <= 16 -> 0 <= v < 2 ^ x ->
  reads D K (if x =? 0 then tret 0 else get_bits f x) (lsb_bits (Z.to_nat x) v ++ rest) v rest.
Proof.
  intros Hf Hx Hv. destruct (x =? 0) eqn:E.
  - apply Z.eqb_eq in E. subst. change (2 ^ 0) with 1 in Hv. replace v with 0 by lia.
    cbn [Z.to_nat lsb_bits app]. apply reads_ret.
  - now apply get_bits_lsb.
Qed.
Lemma reads_lift {A} D K (a : A) o bits : o = Ok a -> reads D K (tlift o) bits a bits.
Proof. intros ->. apply reads_ret. Qed.

Lemma in_code_len L s : in_code L s -> 1 <= len (codeword L s).
Proof. intros [_ H]. unfold len. rewrite codeword_length. lia. Qed.
Lemma length_code_max k lb lx le : znth length_codes k = Some (lb, lx) -> 0 <= le < 2 ^ lx -> 0 <= lb + le <= 258.
Proof.
  intros H. pose proof (znth_some _ _ _ _ H) as R. change (len length_codes) with 29 in R.
  assert (forallb (fun k => match znth length_codes k with Some (lb, lx) => (0 <=? lb) && (lb + 2 ^ lx - 1 <=? 258) | None => true end) (zseq 0 29) = true) as C by reflexivity.
  rewrite forallb_forall in C. specialize (C k). rewrite zseq_in in C. specialize (C ltac:(lia)).
  rewrite H in C. lia.
Qed.
Lemma tokens_slow LL DL ts bs : tokens_bits LL DL ts bs -> forall out r, expands out ts r -> len r <= len out + 129 * len bs.
Proof.
  induction 1 as [H|t b ts bs Ht Hts IH]; intros out r HX.
  - inversion HX. subst. pose proof (len_nonneg _ (codeword LL 256)). lia.
  - rewrite len_app. inversion Ht as [c Hc Hi|k lb lx le j db dx de Hk Hle Hi Hj Hde Hij]; subst.
    + inversion HX as [|? ? ? ? HX1|]; subst. apply IH in HX1. rewrite len_app in HX1. change (len [c]) with 1 in HX1.
      apply in_code_len in Hi. lia.
    + inversion HX as [| |? ? ? ? ? Hd HX1]; subst. apply IH in HX1. rewrite copy_snoc_len in HX1.
      pose proof (length_code_max _ _ _ _ Hk Hle). apply in_code_len in Hi. apply in_code_len in Hij. rewrite !len_app.
      pose proof (len_nonneg _ (lsb_bits (Z.to_nat lx) le)).
      pose proof (len_nonneg _ (lsb_bits (Z.to_nat dx) de)). lia.
Qed.
Section Codes.
Variables (D : bytes) (K : Z -> Z).
Hypothesis HK : slow K.
Local Notation st := (InflBits.st D K).
Local Notation leads := (InflBits.leads D K).
Variables (LL DL : list Z) (h0 h1 : huff).
Hypothesis HLL : valid_code LL.
Hypothesis HDL : valid_code DL.
Hypothesis H288 : len LL <= 288.
Hypothesis H32 : len DL <= 32.
Hypothesis T0 : table_ok LL h0.
Hypothesis T1 : table_ok DL h1.
Variable f : nat.
Hypothesis Hf : (2 <= f)%nat.

Lemma do_match_ok k lb lx le j db dx de rest q F s out : K (len out) <= len rest ->
  znth length_codes k = Some (lb, lx) -> 0 <= le < 2 ^ lx ->
  znth distance_codes j = Some (db, dx) -> 0 <= de < 2 ^ dx -> in_code DL j ->
  1 <= db + de <= len out -> prefix (copy (Z.to_nat (lb + le)) (db + de) out) D ->
  st q F s (lsb_bits (Z.to_nat lx) le ++ codeword DL j ++ lsb_bits (Z.to_nat dx) de ++ rest) out ->
  leads (fun q' F' _ s' => st q' F' s' rest (copy (Z.to_nat (lb + le)) (db + de) out))  q F (do_match f h1 (257 + k) s).
Proof.
  intros HKR Hk Hle Hj Hde Hin Hd Hp S.
  destruct (length_tables _ _ _ Hk) as (E1 & E2 & Hk29 & Hlx & Hlb).
  destruct (distance_tables _ _ _ Hj) as (E3 & E4 & Hdx & Hdb & Hd2).
  pose proof (valid_kraft DL HDL) as KD.
  unfold do_match. replace (257 + k - 257) with k by lia.
  eapply leads_reads; [apply reads_lift; exact E1|exact S|more_bits|]. clear S s q F. intros q F s S.
  eapply leads_reads; [apply reads_lift; exact E2|exact S|more_bits|]. clear S s q F. intros q F s S.
  eapply leads_reads; [apply extra_ok; [exact Hf|lia|exact Hle]|exact S|more_bits|]. clear S s q F. intros q F s S.
  eapply leads_reads; [apply (huff_decode_ok DL h1) with (s := j); auto; [apply HDL|lia]|exact S|more_bits|]. clear S s q F. intros q F s S.
  eapply leads_reads; [apply reads_lift; exact E3|exact S|more_bits|]. clear S s q F. intros q F s S.
  eapply leads_reads; [apply reads_lift; exact E4|exact S|more_bits|]. clear S s q F. intros q F s S.
  eapply leads_reads; [apply extra_ok; [exact Hf|lia|exact Hde]|exact S|more_bits|]. clear S s q F. intros q F s S.
  apply do_copy_ok; auto; lia.
Qed.

(** what follows a symbol that is not a literal *)
Definition non_literal (ts : list token) (sym : Z) (tail : list bool) : Prop :=
  (sym = 256 /\ ts = [] /\ tail = []) \/
  (exists k lb lx le j db dx de ts' bs',
     znth length_codes k = Some (lb, lx) /\ 0 <= le < 2 ^ lx /\
     znth distance_codes j = Some (db, dx) /\ 0 <= de < 2 ^ dx /\ in_code DL j /\
     sym = 257 + k /\ ts = Copy (lb + le) (db + de) :: ts' /\
     tail = lsb_bits (Z.to_nat lx) le ++ codeword DL j ++ lsb_bits (Z.to_nat dx) de ++ bs' /\
     tokens_bits LL DL ts' bs').
Lemma first_symbol ts bs : tokens_bits LL DL ts bs ->
  exists sym tail, bs = codeword LL sym ++ tail /\ in_code LL sym /\
    ((0 <= sym < 256 /\ exists ts', ts = Lit sym :: ts' /\ tokens_bits LL DL ts' tail) \/
     (256 <= sym /\ non_literal ts sym tail)).
Proof.
  intros H. destruct H as [H|t b ts bs Ht Hts].
  - exists 256, []. rewrite app_nil_r. split; [reflexivity|]. split; [assumption|]. right. split; [lia|]. now left.
  - destruct Ht as [c Hc Hin|k lb lx le j db dx de Hk Hle Hin Hj Hde Hin2].
    + exists c, bs. split; [reflexivity|]. split; [assumption|]. left. split; [assumption|]. eauto.
    + exists (257 + k), (lsb_bits (Z.to_nat lx) le ++ codeword DL j ++ lsb_bits (Z.to_nat dx) de ++ bs).
      split; [now rewrite <- !app_assoc|]. split; [assumption|]. right.
      pose proof (znth_some _ _ _ _ Hk). split; [lia|]. right.
      exists k, lb, lx, le, j, db, dx, de, ts, bs. auto 12.
Qed.
Definition codes_done turns := forall q F s ts bs rest out r, K (len r - 259) <= len rest ->
  tokens_bits LL DL ts bs -> expands out ts r -> prefix r D -> st q F s (bs ++ rest) out ->
  (length ts < turns)%nat -> leads (fun q' F' _ s' => st q' F' s' rest r) q F (codes turns f h0 h1 s).
Lemma expands_prefix out ts r : expands out ts r -> prefix out r.
Proof.
  induction 1.
  - apply prefix_refl.
  - eapply prefix_trans; [|eassumption]. apply prefix_app.
  - eapply prefix_trans; [|eassumption]. apply copy_prefix.
Qed.
Lemma still_left ts bs rest (out r : bytes) : tokens_bits LL DL ts bs -> expands out ts r -> K (len r - 259) <= len rest ->
  K (len out - 259) <= len (bs ++ rest) /\ K (len out) <= len (bs ++ rest).
Proof.
  intros Ht HX HR. pose proof (tokens_slow _ _ _ _ Ht _ _ HX) as G. destruct (expands_prefix _ _ _ HX) as [x Ex].
  assert (len out <= len r) as Hle by (rewrite Ex, len_app; pose proof (len_nonneg _ x); lia).
  destruct HK as [H1 H2]. pose proof (H2 (len out - 259) (len r - len out) (len bs) ltac:(lia)) as HS.
  replace (len out - 259 + (len r - len out)) with (len r - 259) in HS by lia. rewrite len_app.
  pose proof (H1 (len out - 259) (len out) ltac:(lia)). lia.
Qed.
(** also while the bytes of the last token are being made *)
Lemma still_left_mid ts bs rest (out out1 r : bytes) : tokens_bits LL DL ts bs -> expands out1 ts r -> K (len r - 259) <= len rest ->
  len out1 <= len out + 259 -> K (len out) <= len (bs ++ rest).
Proof.
  intros Ht HX HR Hl. destruct (still_left _ _ _ _ _ Ht HX HR) as [H _]. etransitivity; [|exact H]. apply HK. lia.
Qed.
Definition after turns sym : T unit :=
  if Z.land sym 511 =? 256 then tret tt
  else tbind (do_match f h1 (Z.land sym 511)) (fun _ => codes turns f h0 h1).
Lemma after_ok turns e sym q F s ts tail rest out r : K (len r - 259) <= len rest -> codes_done turns ->
  Z.land e 511 = sym -> non_literal ts sym tail -> expands out ts r -> prefix r D ->
  st q F s (tail ++ rest) out -> (length ts <= turns)%nat ->
  leads (fun q' F' _ s' => st q' F' s' rest r) q F (after turns e s).
Proof.
  intros HKR IH He HN HX HP S Ht. unfold after. rewrite He.
  destruct HN as [(-> & -> & ->)|(k & lb & lx & le & j & db & dx & de & ts' & bs' & Hk & Hle & Hj & Hde & Hin & -> & -> & -> & Hts)].
  - change (256 =? 256) with true. cbv iota. inversion HX; subst. constructor. exact S.
  - pose proof (znth_some _ _ _ _ Hk). replace (257 + k =? 256) with false by lia.
    inversion HX as [| |? ? ? ? ? Hd HX']; subst. rewrite <- !app_assoc in S.
    eapply leads_bind.
    + eapply do_match_ok with (rest := bs' ++ rest); eauto.
      2: eapply prefix_trans; [|exact HP]; now apply expands_prefix in HX'.
      eapply still_left_mid; eauto. rewrite copy_snoc_len. pose proof (length_code_max _ _ _ _ Hk Hle). lia.
    + intros q' F' [] s' S'. cbv beta in S'. eapply IH; eauto; cbn [length] in Ht; lia.
Qed.
Lemma store_ok q F s bits out c : st q F s bits out -> ti_cur s < 32768 -> prefix (out ++ [c]) D ->
  exists s', store c s = RDone tt s' /\ st q F s' bits (out ++ [c]) /\ ti_cur s' = ti_cur s + 1.
Proof.
  intros S Hc Hp. unfold store, dict_put, TINFL_LZ_DICT_SIZE. assert (0 <= ti_cur s) by apply S.
  replace ((0 <=? ti_cur s) && (ti_cur s <? 32768)) with true by lia.
  eexists. split; [reflexivity|]. split; [|reflexivity]. now apply st_push.
Qed.
Lemma land_256 e s : 0 <= s < 512 -> Z.land e 511 = s -> negb (Z.land e 256 =? 0) = (256 <=? s).
Proof.
  intros Hs E. assert (Z.land e 256 = Z.land s 256) as ->.
  { rewrite <- E, <- Z.land_assoc. reflexivity. }
  assert (Z.land s 256 = if 256 <=? s then 256 else 0) as ->.
  { rewrite <- (Z.bits_inj' (Z.land s 256) (if 256 <=? s then 256 else 0)); [reflexivity|].
    intros n Hn. rewrite Z.land_spec. change 256 with (2 ^ 8) at 1. rewrite Z.pow2_bits_eqb by lia.
    destruct (8 =? n) eqn:E8.
    - apply Z.eqb_eq in E8. subst n. rewrite andb_true_r.
      rewrite Z.testbit_odd, Z.shiftr_div_pow2 by lia. change (2 ^ 8) with 256.
      destruct (256 <=? s) eqn:E2.
      + replace (s / 256) with 1; [reflexivity|]. apply Z.div_unique with (s - 256); lia.
      + rewrite Z.div_small by lia. reflexivity.
    - rewrite andb_false_r. destruct (256 <=? s); [|now rewrite Z.bits_0].
      change 256 with (2 ^ 8). rewrite Z.pow2_bits_eqb by lia. now rewrite E8. }
  destruct (256 <=? s); reflexivity.
Qed.
Lemma u8_entry e s : 0 <= s < 256 -> Z.land e 511 = s -> u8 e = s.
Proof.
  intros Hs E. unfold u8. rewrite <- (Z.mod_small s 256) by lia. rewrite <- E.
  change 511 with (Z.ones 9). rewrite Z.land_ones by lia. change (2 ^ 9) with (256 * 2).
  rewrite Z.rem_mul_r by lia. rewrite Z.mul_comm, Z_mod_plus_full. symmetry. apply Z.mod_mod. lia.
Qed.
Lemma take_word_ok F s bits d c : at_bits F s bits d c -> 4 <= len (ti_in s) -> ti_nb s < 30 ->
  exists s', take_word s = RDone tt s' /\ at_bits F s' bits d c /\ ti_nb s' = ti_nb s + 32.
Proof.
  intros ((Hn & Hb & Hi) & Ea & Ed & Ec) Hl Hnb. unfold take_word.
  destruct (ti_in s) as [|x0 [|x1 [|x2 [|x3 t]]]] eqn:Ei; try (unfold len in Hl; cbn in Hl; lia).
  inversion Hi as [|? ? H0 Hi1]; subst. inversion Hi1 as [|? ? H1 Hi2]; subst.
  inversion Hi2 as [|? ? H2 Hi3]; subst. inversion Hi3 as [|? ? H3 Hi4]; subst.
  unfold is_byte in *.
  assert (lsb_bits 32 (x0 + 256 * x1 + 65536 * x2 + 16777216 * x3) = lsb_bits 8 x0 ++ lsb_bits 8 x1 ++ lsb_bits 8 x2 ++ lsb_bits 8 x3) as Ew.
  { change 32%nat with (8 + (8 + (8 + 8)))%nat.
    replace (x0 + 256 * x1 + 65536 * x2 + 16777216 * x3) with (x0 + (x1 + (x2 + x3 * 2 ^ Z.of_nat 8) * 2 ^ Z.of_nat 8) * 2 ^ Z.of_nat 8)
      by (change (2 ^ Z.of_nat 8) with 256; lia).
    rewrite !lsb_concat by (change (2 ^ Z.of_nat 8) with 256; lia). reflexivity. }
  destruct (add_bits_ok (x0 + 256 * x1 + 65536 * x2 + 16777216 * x3) 32 F (set_in s t) (bits_of (t ++ F)) (ti_dict s) (ti_cur s) (bits_of ((x0 :: x1 :: x2 :: x3 :: t) ++ F)))
    as (s' & E & A & N & _); cbn [set_in ti_nb ti_bb ti_in ti_dict ti_cur]; auto.
  - split; [|split]; cbn [set_in ti_nb ti_bb ti_in]; auto.
  - lia.
  - lia.
  - lia.
  - change (Z.to_nat 32) with 32%nat. rewrite Ew. cbn [app]. rewrite !bits_of_cons, <- !app_assoc. reflexivity.
  - exists s'. split; [exact E|]. split; [|exact N]. unfold ahead. rewrite Ei. exact A.
Qed.
Lemma left_tail sym ts tail rest (out0 out r : bytes) :
  (0 <= sym < 256 /\ (exists ts', ts = Lit sym :: ts' /\ tokens_bits LL DL ts' tail)) \/ (256 <= sym /\ non_literal ts sym tail) ->
  expands out ts r -> K (len r - 259) <= len rest -> len out <= len out0 + 1 -> K (len out0) <= len (tail ++ rest).
Proof.
  intros HC HX HR Hl. destruct HC as [(Hs & ts' & -> & Ht)|(_ & [(_ & -> & ->)|(k & lb & lx & le & j & db & dx & de & ts' & bs' & Hk & Hle & Hj & Hde & Hin & _ & -> & -> & Hts)])].
  - inversion HX as [|? ? ? ? HX'|]; subst. eapply still_left_mid; eauto. rewrite len_app. change (len [sym]) with 1. lia.
  - inversion HX; subst. cbn [app]. etransitivity; [|exact HR]. apply HK. lia.
  - inversion HX as [| |? ? ? ? ? Hd HX']; subst. rewrite <- !app_assoc. do 3 apply len_app_ge.
    eapply still_left_mid; eauto. rewrite copy_snoc_len. pose proof (length_code_max _ _ _ _ Hk Hle). lia.
Qed.
Theorem codes_ok : forall turns, codes_done turns.
Proof.
  pose proof (valid_kraft LL HLL) as KL.
  assert (len LL <= 512) as H512 by lia. assert (lens_ok LL) as LO by apply HLL.
  induction turns as [|turns IH]; intros q F s ts bs rest out r HKR Hts HX HP S Ht; [lia|].
  destruct (first_symbol ts bs Hts) as (sym & tail & -> & Hin & Hcase).
  assert (0 <= sym < 288) as Hsym by (destruct Hin; lia).
  rewrite <- app_assoc in S. cbn [codes].
  destruct ((len (ti_in s) <? 4) || (TINFL_LZ_DICT_SIZE - ti_cur s <? 2)) eqn:Epath.
  - (* one symbol *)
    eapply leads_reads; [apply (huff_decode_ok LL h0) with (s := sym); auto|exact S|apply (left_tail sym ts tail rest out out r Hcase HX HKR); lia|].
    clear S s Epath q F. intros q F s S.
    destruct Hcase as [(Hlit & ts' & -> & Hts')|(Hge & HN)].
    + replace (sym >=? 256) with false by lia.
      inversion HX as [|? ? ? ? HX'|]; subst.
      assert (u8 sym = sym) as -> by (apply Z.mod_small; lia).
      eapply leads_bind; [apply put_byte_ok; [exact HK|exact Hf|exact S|]|].
      * eapply prefix_trans; [|exact HP]. eapply expands_prefix; exact HX'.
      * intros q' F' [] s' S'. cbv beta in S'. eapply IH; eauto; cbn [length] in Ht; lia.
    + replace (sym >=? 256) with true by lia.
      apply (after_ok turns sym sym q F s ts tail rest out r); auto; [|lia].
      change 511 with (Z.ones 9). rewrite Z.land_ones by lia. apply Z.mod_small. change (2 ^ 9) with 512. lia.
  - (* the fast path *)
    unfold TINFL_LZ_DICT_SIZE in Epath.
    unfold tbind at 1. cbn [num_bits res_bind].
    assert (exists s1, (if ti_nb s <? 30 then take_word else tret tt) s = RDone tt s1 /\
              at_bits F s1 (codeword LL sym ++ tail ++ rest) (ti_dict s) (ti_cur s) /\ 30 <= ti_nb s1) as (s1 & E1 & A1 & N1).
    { destruct (ti_nb s <? 30) eqn:E30.
      - destruct (take_word_ok F s _ _ _ (at_st _ _ _ _ _ _ _ S)) as (s1 & E & A & N); [lia|lia|].
        exists s1. split; [exact E|]. split; [exact A|]. destruct S as ((? & _) & _). lia.
      - exists s. split; [reflexivity|]. split; [eapply at_st; eauto|lia]. }
    unfold tbind at 1. rewrite E1. cbn [res_bind].
    pose proof (l_pos LL LO sym Hin) as Lp.
    destruct (fast_entry_ok LL h0 LO H512 T0 sym Hin F s1 (tail ++ rest) _ _ A1 ltac:(lia)) as (e & s2 & E2 & A2 & N2 & _ & He & Hm).
    unfold tbind at 1. rewrite E2. cbn [res_bind].
    rewrite (land_256 e sym) by (auto; lia).
    pose proof (st_at _ _ _ _ _ _ _ _ _ S A2 ltac:(apply (left_tail sym ts tail rest out out r Hcase HX HKR); lia)) as S2.
    destruct Hcase as [(Hlit & ts' & -> & Hts')|(Hge & HN)].
    + replace (256 <=? sym) with false by lia.
      inversion HX as [|? ? ? ? HX'|]; subst.
      destruct (first_symbol ts' tail Hts') as (sym2 & tail2 & -> & Hin2 & Hcase2).
      assert (0 <= sym2 < 288) as Hsym2 by (destruct Hin2; lia).
      rewrite <- app_assoc in A2. pose proof (l_pos LL LO sym2 Hin2) as Lp2.
      destruct (fast_entry_ok LL h0 LO H512 T0 sym2 Hin2 F s2 (tail2 ++ rest) _ _ A2 ltac:(lia)) as (e2 & s3 & E3 & A3 & N3 & _ & He2 & Hm2).
      unfold tbind at 1. rewrite E3. cbn [res_bind].
      assert (K (len out) <= len (tail2 ++ rest)) as HK3.
      { eapply (left_tail sym2 ts' tail2 rest out _ r Hcase2 HX' HKR). rewrite len_app. match goal with |- _ + len ?l <= _ => change (len l) with 1 end. lia. }
      pose proof (st_at _ _ _ _ _ _ _ _ _ S A3 HK3) as S3.
      assert (ti_cur s3 = ti_cur s) as C3 by apply A3.
      rewrite (u8_entry e (Z.land e 511)) by auto.
      destruct (store_ok q F s3 _ _ (Z.land e 511) S3 ltac:(lia) ltac:(eapply prefix_trans; [eapply expands_prefix; exact HX'|exact HP])) as (s4 & E4 & S4 & C4).
      unfold tbind at 1. rewrite E4. cbn [res_bind].
      rewrite (land_256 e2 sym2) by (auto; lia).
      destruct Hcase2 as [(Hlit2 & ts2 & -> & Hts2)|(Hge2 & HN2)].
      * replace (256 <=? sym2) with false by lia.
        inversion HX' as [|? ? ? ? HX''|]; subst.
        rewrite (u8_entry e2 (Z.land e2 511)) by auto.
        destruct (store_ok q F s4 _ _ (Z.land e2 511) S4 ltac:(lia) ltac:(eapply prefix_trans; [eapply expands_prefix; exact HX''|exact HP])) as (s5 & E5 & S5 & C5).
        unfold tbind. rewrite E5. cbn [res_bind].
        eapply IH; eauto; cbn [length] in Ht; lia.
      * replace (256 <=? sym2) with true by lia.
        apply (after_ok turns e2 sym2 q F s4 ts' tail2 rest (out ++ [Z.land e 511]) r); auto. cbn [length] in Ht. lia.
    + replace (256 <=? sym) with true by lia.
      apply (after_ok turns e sym q F s2 ts tail rest out r); auto. lia.
Qed.
End Codes.
