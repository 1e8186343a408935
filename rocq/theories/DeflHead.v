(** Block headers of the compressor (src/miniz/miniz.cpp 1019-1096). *)
From Coq Require Import ZArith List Bool Lia.
From Verif Require Import Base Arr Tinfl Tdefl BaseFacts DeflateSpec BitFacts HuffFacts HuffCost HuffBuild MinRed DeflHuff DeflCost DeflBits DeflLz DeflLz3 DeflRle.
From Verif Require InflCopy.
Import ListNotations.
Open Scope Z_scope.

Lemma put_code_bits L C s limit o : codes_for L C -> Forall (fun x => 0 <= x <= limit) L -> limit <= 16 -> in_code L s ->
  owf o -> ob_nb o < 8 -> emits o (put_bits (at_index C s) (at_index L s) o) (codeword L s).
Proof.
  intros CF M HL I W H8. destruct (CF s I) as [R <-]. change (at_index L s) with (code_len L s).
  apply put_bits_ok; try assumption. destruct I as [I1 I2]. split; [lia|].
  unfold code_len in *. destruct (nth_in_or_default (Z.to_nat s) L 0) as [N|E]; [|lia].
  pose proof (proj1 (Forall_forall _ _) M _ N) as P. cbv beta in P. lia.
Qed.
Lemma put_packed_one turns x t C CL o : x < 16 ->
  put_packed (S turns) (x :: t) C CL o = put_packed turns t C CL (put_bits (at_index C x) (at_index CL x) o).
Proof. intros H. cbn [put_packed]. replace (x >=? 16) with false by lia. reflexivity. Qed.
Lemma put_packed_extra turns x e t C CL o : 16 <= x ->
  put_packed (S turns) (x :: e :: t) C CL o
  = put_packed turns t C CL (put_bits e (at_index [2; 3; 7] (x - 16)) (put_bits (at_index C x) (at_index CL x) o)).
Proof. intros H. cbn [put_packed]. replace (x >=? 16) with true by lia. reflexivity. Qed.
Lemma put_packed_ok CL C its : codes_for CL C -> Forall (fun x => 0 <= x <= 7) CL ->
  Forall item_ok its -> Forall (fun i => in_code CL (item_code i)) its ->
  forall turns o, (length (flat_map item_codes its) <= turns)%nat -> owf o -> ob_nb o < 8 ->
  emits o (put_packed turns (flat_map item_codes its) C CL o) (flat_map (item_bits CL) its).
Proof.
  intros CF M. induction its as [|i its IH]; intros O I turns o HT W H8.
  - cbn [flat_map]. destruct turns; now apply emits_nil.
  - inversion_clear O as [|? ? O1 O2]. inversion_clear I as [|? ? I1 I2]. cbn [flat_map] in *. rewrite app_length in HT.
    assert (emits o (put_bits (at_index C (item_code i)) (at_index CL (item_code i)) o) (codeword CL (item_code i))) as E1
      by (eapply put_code_bits; try eassumption; lia).
    assert (forall w e, 0 <= w <= 16 -> 0 <= e < 2 ^ w -> forall turns', (length (flat_map item_codes its) <= turns')%nat ->
      emits o (put_packed turns' (flat_map item_codes its) C CL (put_bits e w (put_bits (at_index C (item_code i)) (at_index CL (item_code i)) o)))
        ((codeword CL (item_code i) ++ lsb_bits (Z.to_nat w) e) ++ flat_map (item_bits CL) its)) as X.
    { intros w e Hw He turns' HT'. rewrite <- app_assoc. eapply emits_trans; [exact E1|].
      pose proof (put_bits_ok e w _ (em_wf _ _ _ E1) (em_nb _ _ _ E1) Hw He) as E2.
      eapply emits_trans; [exact E2|]. apply IH; try assumption; apply E2. }
    destruct i as [x|e|e|e]; cbn [item_codes item_code item_ok item_bits app length] in *;
      (destruct turns as [|turns]; [lia|]).
    + rewrite put_packed_one by lia. eapply emits_trans; [exact E1|].
      apply IH; try assumption; [lia|apply E1|apply E1].
    + rewrite put_packed_extra by lia. exact (X 2 e ltac:(lia) ltac:(change (2 ^ 2) with 4; lia) turns ltac:(lia)).
    + rewrite put_packed_extra by lia. exact (X 3 e ltac:(lia) ltac:(change (2 ^ 3) with 8; lia) turns ltac:(lia)).
    + rewrite put_packed_extra by lia. exact (X 7 e ltac:(lia) ltac:(change (2 ^ 7) with 128; lia) turns ltac:(lia)).
Qed.
Lemma put_sizes_ok CL l : Forall (fun x => 0 <= x <= 7) CL -> forall o, owf o -> ob_nb o < 8 ->
  emits o (put_sizes l CL o) (flat_map (fun s => lsb_bits 3 (code_len CL s)) l).
Proof.
  intros M. induction l as [|s l IH]; intros o W H8; cbn [put_sizes flat_map]; [now apply emits_nil|].
  assert (0 <= at_index CL s < 2 ^ 3) as B.
  { change (2 ^ 3) with 8. unfold at_index. destruct (nth_in_or_default (Z.to_nat s) CL 0) as [N|E]; [|lia].
    pose proof (proj1 (Forall_forall _ _) M _ N) as P. cbv beta in P. lia. }
  assert (emits o (put_bits (at_index CL s) 3 o) (lsb_bits 3 (code_len CL s))) as E1
    by (apply (put_bits_ok (at_index CL s) 3); try assumption; lia).
  eapply emits_trans; [exact E1|]. apply IH; apply E1.
Qed.
Lemma trim_ok turns low sizes : forall n, low <= n -> n - low < Z.of_nat turns ->
  let m := trim turns low sizes n in low <= m <= n /\ forall i, m <= i < n -> at_index sizes i = 0.
Proof.
  induction turns as [|turns IH]; intros n H1 H2; [lia|]. cbn [trim].
  destruct (Z.gtb_spec n low) as [G|G]; cbn [andb].
  - destruct (Z.eqb_spec (at_index sizes (n - 1)) 0) as [E|E].
    + specialize (IH (n - 1) ltac:(lia) ltac:(lia)). cbv zeta in *. destruct IH as [A B]. split; [lia|].
      intros i Hi. destruct (Z.eq_dec i (n - 1)) as [->|]; [assumption|]. apply B. lia.
    + cbv zeta. split; [lia|]. intros. lia.
  - cbv zeta. split; [lia|]. intros. lia.
Qed.
Lemma trim_swizzle_ok turns sizes : forall n, -1 <= n -> n + 1 < Z.of_nat turns ->
  let m := trim_swizzle turns sizes n in -1 <= m <= n /\
  forall i, m < i <= n -> at_index sizes (at_index s_length_dezigzag i) = 0.
Proof.
  induction turns as [|turns IH]; intros n H1 H2; [lia|]. cbn [trim_swizzle].
  destruct (Z.geb_spec n 0) as [G|G]; cbn [andb].
  - destruct (Z.eqb_spec (at_index sizes (at_index s_length_dezigzag n)) 0) as [E|E].
    + specialize (IH (n - 1) ltac:(lia) ltac:(lia)). cbv zeta in *. destruct IH as [A B]. split; [lia|].
      intros i Hi. destruct (Z.eq_dec i n) as [->|]; [assumption|]. apply B. lia.
    + cbv zeta. split; [lia|]. intros. lia.
  - cbv zeta. split; [lia|]. intros. lia.
Qed.

(** ** Dropping trailing zero lengths *)
Lemma space_before_zeros k : forall i s l, space_before (repeat 0 k) i s l = 0.
Proof. induction k as [|k IH]; intros; cbn [repeat space_before]; [reflexivity|]. rewrite IH. reflexivity. Qed.
Lemma space_before_app A B : forall i s l, space_before (A ++ B) i s l = space_before A i s l + space_before B (i + len A) s l.
Proof.
  induction A as [|x A IH]; intros; cbn [app space_before].
  - rewrite len_nil, Z.add_0_r. lia.
  - rewrite IH, len_cons. replace (i + 1 + len A) with (i + (1 + len A)) by lia. lia.
Qed.
Section Trunc.
Variables (L M : list Z) (k : nat).
Hypothesis LM : L = M ++ repeat 0 k.
Lemma trunc_len s : code_len M s = code_len L s.
Proof.
  unfold code_len. rewrite LM. destruct (Nat.lt_ge_cases (Z.to_nat s) (length M)) as [H|H].
  - now rewrite app_nth1.
  - rewrite app_nth2 by assumption. rewrite nth_overflow by assumption.
    destruct (nth_in_or_default (Z.to_nat s - length M) (repeat 0 k) 0) as [I|E]; [|now rewrite E].
    now apply repeat_spec in I.
Qed.
Lemma trunc_codeword s : codeword M s = codeword L s.
Proof.
  unfold codeword. rewrite trunc_len. f_equal. f_equal. unfold code_value. rewrite trunc_len. rewrite LM.
  rewrite space_before_app, space_before_zeros. lia.
Qed.
Lemma trunc_in_code s : in_code L s -> in_code M s.
Proof. intros [[I0 I1] I2]. apply in_code_iff; [assumption|]. now rewrite trunc_len. Qed.
Lemma trunc_valid : valid_code L -> valid_code M.
Proof.
  unfold valid_code, used_symbols. rewrite LM. intros [F H]. rewrite !map_app, !zsum_app in H.
  assert (zsum (map space_of (repeat 0 k)) = 0) as Z1 by (clear; induction k; cbn [repeat map zsum]; auto).
  assert (zsum (map (fun x => if 0 <? x then 1 else 0) (repeat 0 k)) = 0) as Z2 by (clear; induction k; cbn [repeat map zsum]; auto).
  apply Forall_app in F. split; [tauto|]. lia.
Qed.
Lemma trunc_tokb M' L' k' t : L' = M' ++ repeat 0 k' -> tokb M M' t = tokb L L' t.
Proof.
  intros LM'. destruct t as [c|n d]; cbn [tokb].
  - apply trunc_codeword.
  - rewrite trunc_codeword. f_equal. f_equal. f_equal. clear - LM'.
    unfold codeword.
    assert (forall s, code_len M' s = code_len L' s) as TL.
    { intros s. unfold code_len. rewrite LM'. destruct (Nat.lt_ge_cases (Z.to_nat s) (length M')) as [H|H].
      - now rewrite app_nth1.
      - rewrite app_nth2 by assumption. rewrite nth_overflow by assumption.
        destruct (nth_in_or_default (Z.to_nat s - length M') (repeat 0 k') 0) as [I|E]; [|now rewrite E].
        now apply repeat_spec in I. }
    rewrite TL. f_equal. f_equal. unfold code_value. rewrite TL. rewrite LM'.
    rewrite space_before_app, space_before_zeros. lia.
Qed.
End Trunc.
Lemma split_zeros L n : 0 <= n <= len L -> (forall i, n <= i < len L -> at_index L i = 0) ->
  L = ztake n L ++ repeat 0 (Z.to_nat (len L - n)).
Proof.
  intros Hn HZ. rewrite ztake_firstn. rewrite <- (firstn_skipn (Z.to_nat n) L) at 1. f_equal.
  apply nth_ext with (d := 0) (d' := 0).
  - rewrite skipn_length, repeat_length. unfold len. lia.
  - intros i Hi. rewrite skipn_length in Hi. rewrite nth_repeat.
    pose proof (HZ (n + Z.of_nat i) ltac:(unfold len in *; lia)) as E. unfold at_index in E.
    rewrite <- (firstn_skipn (Z.to_nat n) L) in E. rewrite app_nth2 in E; rewrite firstn_length in *; [|unfold len in *; lia].
    etransitivity; [|exact E]. f_equal. unfold len in *. lia.
Qed.

(** ** 1019-1079 *)
Lemma item_bits_len CL its : Forall (fun x => 0 <= x <= 7) CL -> len (flat_map (item_bits CL) its) <= 14 * len its.
Proof.
  intros V. induction its as [|i its IH]; [cbn; lia|]. cbn [flat_map]. rewrite len_app, len_cons.
  enough (len (item_bits CL i) <= 14) by lia.
  assert (forall s, len (codeword CL s) <= 7) as C.
  { intros s. unfold len. rewrite codeword_length. unfold code_len.
    destruct (nth_in_or_default (Z.to_nat s) CL 0) as [N|E]; [|rewrite E; cbn; lia].
    pose proof (proj1 (Forall_forall _ _) V _ N) as P. cbv beta in P. lia. }
  destruct i as [x|e|e|e]; cbn [item_bits]; rewrite ?len_app, ?lsb_len.
  - specialize (C x). lia.
  - specialize (C 16). lia.
  - specialize (C 17). lia.
  - specialize (C 18). lia.
Qed.
Record dyn_header (c0 c1 : list Z) (t : tables) (hdr : list bool) : Prop := {
  dh_tables : tables_ok t;
  dh_used0 : forall s, 0 <= s -> 0 < at_index c0 s \/ s = 256 -> in_code (t_sizes0 t) s;
  dh_used1 : forall s, 0 <= s -> 0 < at_index c1 s -> in_code (t_sizes1 t) s;
  dh_len : len hdr <= 4600;
  dh_cost0 : 7560 * dotl (nth_update c0 256 1) (t_sizes0 t) <= 69268 * zsum (nth_update c0 256 1);
  dh_cost1 : 7560 * dotl c1 (t_sizes1 t) <= 38444 * zsum c1;
  dh_block : forall pos out ts r, Forall tok_ok ts -> Forall (counted c0 c1) ts -> expands out ts r ->
    block_bits pos out (hdr ++ toksb (t_sizes0 t) (t_sizes1 t) ts ++ codeword (t_sizes0 t) 256) r
}.
Lemma ztake_nth l n i : 0 <= i < n -> at_index (ztake n l) i = at_index l i.
Proof.
  intros H. rewrite ztake_firstn. unfold at_index. rewrite <- (firstn_skipn (Z.to_nat n) l) at 2.
  destruct (Nat.lt_ge_cases (Z.to_nat i) (length (firstn (Z.to_nat n) l))) as [HL|HL].
  - now rewrite app_nth1.
  - rewrite nth_overflow by assumption. rewrite app_nth2 by assumption. rewrite firstn_length in HL.
    rewrite nth_overflow; [reflexivity|]. rewrite skipn_length. lia.
Qed.
Theorem start_dynamic_ok c0 c1 o : len c0 = 288 -> len c1 = 32 ->
  Forall (fun x => 0 <= x) c0 -> Forall (fun x => 0 <= x) c1 ->
  zsum c0 <= 65534 -> zsum c1 <= 65535 ->
  (forall j, 286 <= j -> at_index c0 j = 0) -> (forall j, 30 <= j -> at_index c1 j = 0) ->
  owf o -> ob_nb o < 8 ->
  exists t hdr o', start_dynamic_block c0 c1 o = Ok (t, o') /\ emits o o' hdr /\ dyn_header c0 c1 t hdr.
Proof.
  intros L0 L1 P0 P1 S0 S1 T0 T1 W H8. unfold start_dynamic_block.
  set (c0' := nth_update c0 256 1).
  assert (256 < length c0)%nat as B256 by (unfold len in L0; lia).
  assert (forall j, 0 <= j -> at_index c0' j = if 256 =? j then 1 else at_index c0 j) as A0
    by (intros; apply (at_update c0 256); lia).
  assert (len c0' = 288) as L0' by (unfold c0', len in *; now rewrite nth_update_length).
  assert (Forall (fun x => 0 <= x) c0') as PC0 by (unfold c0'; apply Forall_update; [assumption|lia]).
  assert (zsum c0' <= 65535) as SC0 by (unfold c0'; rewrite zsum_update by assumption; pose proof (nth_le_zsum c0 256 P0); lia).
  destruct (optimize_table_ok c0' 15) as (s0 & k0 & EO0 & (Q1 & Q2 & Q3 & Q4 & Q5)); try lia; [assumption|].
  destruct (optimize_cost c0' s0 k0 ltac:(lia) PC0 SC0 EO0) as [K0 _]. specialize (K0 ltac:(lia)). rewrite EO0. clear EO0.
  cbn [obind fst snd].
  destruct (optimize_table_ok c1 15) as (s1 & k1 & EO1 & (R1 & R2 & R3 & R4 & R5)); try lia; [assumption|].
  destruct (optimize_cost c1 s1 k1 ltac:(lia) P1 ltac:(lia) EO1) as [_ K1]. specialize (K1 ltac:(lia)). rewrite EO1. clear EO1.
  cbn [obind fst snd].
  assert (forall j, 286 <= j -> at_index s0 j = 0) as Z0.
  { intros j Hj. specialize (Q5 j ltac:(lia)). rewrite (A0 j) in Q5 by lia. replace (256 =? j) with false in Q5 by lia.
    rewrite (T0 j Hj) in Q5. pose proof (code_len_max s0 j Q2) as B. change (code_len s0 j) with (at_index s0 j) in B. lia. }
  assert (forall j, 30 <= j -> at_index s1 j = 0) as Z1.
  { intros j Hj. specialize (R5 j ltac:(lia)). rewrite (T1 j Hj) in R5.
    pose proof (code_len_max s1 j R2) as B. change (code_len s1 j) with (at_index s1 j) in B. lia. }
  pose proof (trim_ok 32 257 s0 286 ltac:(lia) ltac:(lia)) as TR0.
  pose proof (trim_ok 32 1 s1 30 ltac:(lia) ltac:(lia)) as TR1. cbv zeta in TR0, TR1.
  set (nl := trim 32 257 s0 286) in *. set (nd := trim 32 1 s1 30) in *.
  destruct TR0 as [N0 Y0]. destruct TR1 as [N1 Y1].
  assert (s0 = ztake nl s0 ++ repeat 0 (Z.to_nat (len s0 - nl))) as SP0.
  { apply split_zeros; [lia|]. intros i Hi. destruct (Z_lt_le_dec i 286); [apply Y0; lia|now apply Z0]. }
  assert (s1 = ztake nd s1 ++ repeat 0 (Z.to_nat (len s1 - nd))) as SP1.
  { apply split_zeros; [lia|]. intros i Hi. destruct (Z_lt_le_dec i 30); [apply Y1; lia|now apply Z1]. }
  set (LL := ztake nl s0) in *. set (DL := ztake nd s1) in *.
  assert (len LL = nl) as LLL by (unfold LL; rewrite len_ztake; lia).
  assert (len DL = nd) as LDL by (unfold DL; rewrite len_ztake; lia).
  assert (Forall (fun x => 0 <= x <= 15) (LL ++ DL)) as FB.
  { rewrite SP0 in Q2. rewrite SP1 in R2. apply Forall_app in Q2. apply Forall_app in R2. apply Forall_app. tauto. }
  destruct (pack_sizes_ok (LL ++ DL) FB) as (its & cnt & -> & PK & CO); [rewrite len_app; lia|].
  pose proof (packs_len _ _ PK) as PL. rewrite len_app in PL.
  destruct (optimize_table_ok cnt 7) as (CL & kc & -> & (V1 & V2 & V3 & V4 & V5)); try (rewrite (co_len _ _ CO)); try lia; [apply CO|rewrite (co_sum _ _ CO); lia|].
  cbn [obind fst snd]. rewrite (co_len _ _ CO) in V1.
  assert (Forall (fun i => in_code CL (item_code i)) its) as INC.
  { apply Forall_forall. intros i Hi. pose proof (proj1 (Forall_forall _ _) (co_in _ _ CO) i Hi) as P. cbv beta in P.
    assert (0 <= item_code i) as HI.
    { pose proof (proj1 (Forall_forall _ _) (packs_items _ _ PK) i Hi) as OI. destruct i; cbn [item_ok item_code] in *; lia. }
    apply in_code_iff; [assumption|]. now apply V5. }
  pose proof (trim_swizzle_ok 20 CL 18 ltac:(lia) ltac:(lia)) as TS. cbv zeta in TS. destruct TS as [N2 Y2].
  set (m := trim_swizzle 20 CL 18) in *. set (nc := Z.max 4 (m + 1)).
  (* bits *)
  assert (emits o (put_bits 2 2 o) (lsb_bits 2 2)) as E1 by (apply (put_bits_ok 2 2); try assumption; [lia|change (2 ^ 2) with 4; lia]).
  set (o1 := put_bits 2 2 o) in *.
  assert (emits o1 (put_bits (nl - 257) 5 o1) (lsb_bits 5 (nl - 257))) as E2
    by (apply (put_bits_ok (nl - 257) 5); [apply E1|apply E1|lia|change (2 ^ 5) with 32; lia]).
  set (o2 := put_bits (nl - 257) 5 o1) in *.
  assert (emits o2 (put_bits (nd - 1) 5 o2) (lsb_bits 5 (nd - 1))) as E3
    by (apply (put_bits_ok (nd - 1) 5); [apply E2|apply E2|lia|change (2 ^ 5) with 32; lia]).
  set (o3 := put_bits (nd - 1) 5 o2) in *.
  assert (emits o3 (put_bits (nc - 4) 4 o3) (lsb_bits 4 (nc - 4))) as E4
    by (apply (put_bits_ok (nc - 4) 4); [apply E3|apply E3|lia|change (2 ^ 4) with 16; unfold nc; lia]).
  set (o4 := put_bits (nc - 4) 4 o3) in *.
  pose proof (put_sizes_ok CL (ztake nc s_length_dezigzag) V2 o4 (em_wf _ _ _ E4) (em_nb _ _ _ E4)) as E5.
  set (o5 := put_sizes (ztake nc s_length_dezigzag) CL o4) in *.
  pose proof (put_packed_ok CL kc its V4 V2 (packs_items _ _ PK) INC (length (flat_map item_codes its)) o5 (Nat.le_refl _) (em_wf _ _ _ E5) (em_nb _ _ _ E5)) as E6.
  eexists _, _, _. split; [reflexivity|].
  split. { eapply emits_trans; [exact E1|]. eapply emits_trans; [exact E2|]. eapply emits_trans; [exact E3|].
           eapply emits_trans; [exact E4|]. eapply emits_trans; [exact E5|exact E6]. }
  constructor; cbn [t_sizes0 t_sizes1 t_codes0 t_codes1].
  - now constructor.
  - intros s Hs HU. apply in_code_iff; [assumption|]. apply Q5; [assumption|]. rewrite A0 by assumption.
    destruct (Z.eqb_spec 256 s); lia.
  - intros s Hs HU. apply in_code_iff; [assumption|]. now apply R5.
  - rewrite !len_app, !lsb_len. pose proof (item_bits_len CL its V2) as IB.
    assert (forall l : list Z, len (flat_map (fun s => lsb_bits 3 (code_len CL s)) l) = 3 * len l) as SB
      by (induction l as [|z l IH]; [reflexivity|]; cbn [flat_map]; rewrite len_app, lsb_len, IH, len_cons; lia).
    rewrite SB, len_ztake. change (len s_length_dezigzag) with 19. lia.
  - exact K0.
  - exact K1.
  - intros pos out ts r OK CN EX.
    assert (in_code s0 256) as I256.
    { apply in_code_iff; [lia|]. apply Q5; [lia|]. rewrite A0 by lia. reflexivity. }
    assert (Forall (tok_in LL DL) ts) as TI.
    { apply Forall_forall. intros t Ht. pose proof (proj1 (Forall_forall _ _) CN t Ht) as [C0 C1].
      pose proof (proj1 (Forall_forall _ _) OK t Ht) as O. split.
      - apply (trunc_in_code s0 LL _ SP0). 
        assert (0 <= tok_sym t) by (destruct t as [c|n d]; cbn [tok_ok tok_sym] in *; [lia|]; destruct (len_facts (n - 3)) as (? & ? & ? & ? & ? & ? & ?); lia).
        apply in_code_iff; [assumption|]. apply Q5; [assumption|]. rewrite A0 by assumption. destruct (Z.eqb_spec 256 (tok_sym t)); lia.
      - destruct t as [c|n d]; [exact I|]. apply (trunc_in_code s1 DL _ SP1). cbn [tok_ok] in O.
        destruct (dist_facts (d - 1)) as (? & ? & ? & ? & ? & ? & ?); [lia|]. apply in_code_iff; [lia|]. apply R5; [lia|assumption]. }
    assert (toksb s0 s1 ts ++ codeword s0 256 = toksb LL DL ts ++ codeword LL 256) as EB.
    { rewrite (trunc_codeword s0 LL _ SP0). f_equal. unfold toksb. apply flat_map_ext.
      intros t. symmetry. now apply (trunc_tokb s0 LL _ SP0 DL s1 _ t SP1). }
    rewrite EB. rewrite <- !app_assoc.
    apply (Dynamic_block pos out nl nd nc CL (flat_map (item_bits CL) its)
             (flat_map (fun s => lsb_bits 3 (code_len CL s)) (ztake nc length_order)) LL DL ts); try assumption; try lia; try reflexivity.
    + intros i Hi s Hs.
      assert (0 <= i < 19) as B by (apply znth_some in Hs; exact Hs).
      assert (s = at_index s_length_dezigzag i) as ->.
      { change s_length_dezigzag with length_order. rewrite (InflCopy.znth_nth length_order i 0) in Hs by exact B. unfold at_index. congruence. }
      apply Y2. unfold nc in Hi. lia.
    + rewrite <- (app_nil_r (flat_map _ its)). eapply packs_bits; [exact PK|exact INC|constructor].
    + now apply (trunc_valid s0 LL _ SP0).
    + now apply (trunc_valid s1 DL _ SP1).
    + apply toksb_ok; try assumption. now apply (trunc_in_code s0 LL _ SP0).
Qed.

(** ** 1081-1096 *)
Theorem start_static_ok o : owf o -> ob_nb o < 8 ->
  exists t o', start_static_block o = Ok (t, o') /\ emits o o' (lsb_bits 2 1) /\ tables_ok t /\
    t_sizes0 t = fixed_lengths /\ t_sizes1 t = fixed_distances.
Proof.
  intros W H8. unfold start_static_block.
  assert (Forall (fun x => 0 <= x <= 15) static_sizes) as F0
    by (unfold static_sizes; repeat (apply Forall_app; split); apply Forall_forall; intros x Hx; apply repeat_spec in Hx; lia).
  assert (Forall (fun x => 0 <= x <= 15) (repeat 5 32)) as F1
    by (apply Forall_forall; intros x Hx; apply repeat_spec in Hx; lia).
  destruct (static_table_ok static_sizes F0) as (k0 & -> & C0). cbn [obind].
  destruct (static_table_ok (repeat 5 32) F1) as (k1 & -> & C1). cbn [obind fst snd].
  eexists _, _. split; [reflexivity|]. split; [apply (put_bits_ok 1 2); try assumption; [lia|change (2 ^ 2) with 4; lia]|].
  split; [now constructor|]. split; reflexivity.
Qed.
Lemma fixed_in t : tok_ok t -> tok_in fixed_lengths fixed_distances t.
Proof.
  assert (forall s, 0 <= s < 288 -> in_code fixed_lengths s) as A.
  { intros s Hs. apply in_code_iff; [lia|].
    assert (forallb (fun n => 0 <? code_len fixed_lengths (Z.of_nat n)) (seq 0 288) = true) as C by (vm_compute; reflexivity).
    rewrite forallb_forall in C. specialize (C (Z.to_nat s)). rewrite Z2Nat.id in C by lia. apply Z.ltb_lt, C, in_seq. lia. }
  assert (forall s, 0 <= s < 32 -> in_code fixed_distances s) as B.
  { intros s Hs. apply in_code_iff; [lia|]. unfold code_len, fixed_distances. 
    rewrite nth_indep with (d' := 5) by (rewrite repeat_length; lia). rewrite nth_repeat. lia. }
  destruct t as [c|n d]; cbn [tok_ok]; intros O; unfold tok_in; cbn [tok_sym].
  - split; [apply A; lia|exact I].
  - destruct (len_facts (n - 3)) as (? & ? & ? & ? & ? & ? & ?); [lia|]. destruct (dist_facts (d - 1)) as (? & ? & ? & ? & ? & ? & ?); [lia|].
    split; [apply A; lia|apply B; lia].
Qed.
Lemma fixed_len s : 0 <= s -> code_len fixed_lengths s <= if s <? 256 then 9 else 8.
Proof.
  intros Hs. destruct (Z_lt_le_dec s 288) as [H|H].
  - assert (forallb (fun n => code_len fixed_lengths (Z.of_nat n) <=? (if Z.of_nat n <? 256 then 9 else 8)) (seq 0 288) = true) as C by (vm_compute; reflexivity).
    rewrite forallb_forall in C. specialize (C (Z.to_nat s)). rewrite Z2Nat.id in C by lia. apply Z.leb_le, C, in_seq. lia.
  - unfold code_len. rewrite nth_overflow; [destruct (s <? 256); lia|]. change (length fixed_lengths) with 288%nat. lia.
Qed.
Lemma fixed_size ts : Forall tok_ok ts -> 3 * len (toksb fixed_lengths fixed_distances ts) <= 31 * len (flat_map tok_bytes ts).
Proof.
  assert (Forall (fun x => 0 <= x <= 15) fixed_lengths) as F0
    by (unfold fixed_lengths; repeat (apply Forall_app; split); apply Forall_forall; intros x Hx; apply repeat_spec in Hx; lia).
  assert (Forall (fun x => 0 <= x <= 15) fixed_distances) as F1
    by (apply Forall_forall; intros x Hx; apply repeat_spec in Hx; lia).
  induction 1 as [|t ts O _ IH]; [cbn; lia|]. unfold toksb in *. cbn [flat_map]. rewrite !len_app.
  enough (3 * len (tokb fixed_lengths fixed_distances t) <= 31 * len (tok_bytes t)) by lia. rewrite DeflLz2.len_tok_bytes.
  destruct t as [c|n d]; cbn [tokb tok_ok is_copy] in *.
  - pose proof (code_len_max _ c F0). rewrite codeword_len by lia. pose proof (fixed_len c ltac:(lia)). destruct (c <? 256); lia.
  - destruct (len_facts (n - 3)) as (lb & lx & ? & ? & ? & ? & ?); [lia|]. destruct (dist_facts (d - 1)) as (db & dx & ? & ? & ? & ? & ?); [lia|].
    rewrite !len_app, !lsb_len. pose proof (code_len_max _ (at_index s_tdefl_len_sym (n - 3)) F0).
    pose proof (code_len_max _ (dist_sym (d - 1)) F1).
    rewrite !codeword_len by lia. pose proof (fixed_len (at_index s_tdefl_len_sym (n - 3)) ltac:(lia)) as X.
    replace (at_index s_tdefl_len_sym (n - 3) <? 256) with false in X by lia.
    assert (code_len fixed_distances (dist_sym (d - 1)) <= 5).
    { unfold code_len, fixed_distances. destruct (nth_in_or_default (Z.to_nat (dist_sym (d - 1))) (repeat 5 32) 0) as [N|E].
      - apply repeat_spec in N. lia.
      - lia. }
    lia.
Qed.
