(** No assertion of the compressor fails (src/miniz/miniz.cpp 989-1696): each function of
    TdeflAsserts.v gives what the one of Tdefl.v gives. *)
From Coq Require Import ZArith List Bool Lia.
From Verif Require Import Base Arr Tinfl Tdefl TdeflAsserts BaseFacts DeflateSpec BitFacts HuffFacts HuffBuild InflCopy MinRed DeflHuff DeflBits DeflLz DeflLz2 DeflLz3 DeflRle DeflHead DeflBlock DeflWindow DeflTop.
Import ListNotations.
Open Scope Z_scope.

Lemma put_bits_a_ok b l o : 0 <= l <= 16 -> 0 <= b < 2 ^ l -> put_bits_a b l o = Ok (put_bits b l o).
Proof.
  intros Hl Hb. unfold put_bits_a. assert (2 ^ l <= 2 ^ 16) by (apply Z.pow_le_mono_r; lia). change (2 ^ 16) with 65536 in *.
  rewrite u32_small by lia. rewrite Z.shiftl_mul_pow2 by lia. assert (b <=? 1 * 2 ^ l - 1 = true) as -> by (apply Z.leb_le; lia). reflexivity.
Qed.
Lemma pad_byte_a_ok o : 0 <= ob_nb o < 8 -> pad_byte_a o = Ok (pad_byte o).
Proof.
  intros H. unfold pad_byte_a, pad_byte. destruct (Z.eqb_spec (ob_nb o) 0) as [E|E]; [reflexivity|].
  apply put_bits_a_ok; [lia|]. split; [lia|]. apply pow2_pos. lia.
Qed.
Lemma size_range L s limit : 0 <= limit -> Forall (fun x => 0 <= x <= limit) L -> 0 <= at_index L s <= limit.
Proof.
  intros HL M. unfold at_index. destruct (nth_in_or_default (Z.to_nat s) L 0) as [N|E]; [|lia].
  exact (proj1 (Forall_forall _ _) M _ N).
Qed.
Lemma put_sizes_a_ok CL l : Forall (fun x => 0 <= x <= 7) CL -> forall o, put_sizes_a l CL o = Ok (put_sizes l CL o).
Proof.
  intros M. induction l as [|s l IH]; intros o; cbn [put_sizes_a put_sizes]; [reflexivity|].
  pose proof (size_range CL s 7 ltac:(lia) M). rewrite put_bits_a_ok by (try change (2 ^ 3) with 8; lia). cbn [obind]. apply IH.
Qed.
Lemma put_code_a L C s limit o : codes_for L C -> 0 <= limit <= 16 -> Forall (fun x => 0 <= x <= limit) L -> in_code L s ->
  put_bits_a (at_index C s) (at_index L s) o = Ok (put_bits (at_index C s) (at_index L s) o).
Proof.
  intros CF HL M I. destruct (CF s I) as [R _]. change (code_len L s) with (at_index L s) in R.
  pose proof (size_range L s limit ltac:(lia) M). apply put_bits_a_ok; [lia|assumption].
Qed.
Lemma put_packed_a_ok CL C its : codes_for CL C -> Forall (fun x => 0 <= x <= 7) CL ->
  Forall item_ok its -> Forall (fun i => in_code CL (item_code i)) its ->
  forall turns o, (length (flat_map item_codes its) <= turns)%nat ->
  put_packed_a turns (flat_map item_codes its) C CL o = Ok (put_packed turns (flat_map item_codes its) C CL o).
Proof.
  intros CF M. induction its as [|i its IH]; intros O I turns o HT.
  - cbn [flat_map]. destruct turns; reflexivity.
  - inversion_clear O as [|? ? O1 O2]. inversion_clear I as [|? ? I1 I2]. cbn [flat_map] in *. rewrite app_length in HT.
    pose proof (put_code_a CL C (item_code i) 7 o CF ltac:(lia) M I1) as E1.
    destruct i as [x|e|e|e]; cbn [item_codes item_code item_ok app length] in *;
      (destruct turns as [|turns]; [lia|]).
    + rewrite put_packed_one by lia. cbn [put_packed_a].
      replace (x <? 19) with true by lia. rewrite E1. cbn [obind]. replace (x >=? 16) with false by lia. apply IH; try assumption. lia.
    + rewrite put_packed_extra by lia. cbn [put_packed_a Z.ltb Z.compare Pos.compare Pos.compare_cont]. rewrite E1. cbn [obind Z.geb Z.compare Pos.compare Pos.compare_cont].
      change (at_index [2; 3; 7] (16 - 16)) with 2. rewrite put_bits_a_ok by (try change (2 ^ 2) with 4; lia). cbn [obind]. apply IH; try assumption. lia.
    + rewrite put_packed_extra by lia. cbn [put_packed_a Z.ltb Z.compare Pos.compare Pos.compare_cont]. rewrite E1. cbn [obind Z.geb Z.compare Pos.compare Pos.compare_cont].
      change (at_index [2; 3; 7] (17 - 16)) with 3. rewrite put_bits_a_ok by (try change (2 ^ 3) with 8; lia). cbn [obind]. apply IH; try assumption. lia.
    + rewrite put_packed_extra by lia. cbn [put_packed_a Z.ltb Z.compare Pos.compare Pos.compare_cont]. rewrite E1. cbn [obind Z.geb Z.compare Pos.compare Pos.compare_cont].
      change (at_index [2; 3; 7] (18 - 16)) with 7. rewrite put_bits_a_ok by (try change (2 ^ 7) with 128; lia). cbn [obind]. apply IH; try assumption. lia.
Qed.
Theorem start_dynamic_a_ok c0 c1 o : len c0 = 288 -> len c1 = 32 ->
  Forall (fun x => 0 <= x) c0 -> Forall (fun x => 0 <= x) c1 ->
  zsum c0 <= 65534 -> zsum c1 <= 65535 ->
  start_dynamic_block_a c0 c1 o = start_dynamic_block c0 c1 o.
Proof.
  intros L0 L1 P0 P1 S0 S1. unfold start_dynamic_block_a, start_dynamic_block.
  set (c0' := nth_update c0 256 1).
  assert (256 < length c0)%nat as B256 by (unfold len in L0; lia).
  assert (len c0' = 288) as L0' by (unfold c0', len in *; now rewrite nth_update_length).
  destruct (optimize_table_ok c0' 15) as (s0 & k0 & -> & (Q1 & Q2 & Q3 & Q4 & Q5)); try lia.
  { unfold c0'. apply Forall_update; [assumption|lia]. }
  { unfold c0'. rewrite zsum_update by assumption. pose proof (nth_le_zsum c0 256 P0). lia. }
  cbn [obind fst snd].
  destruct (optimize_table_ok c1 15) as (s1 & k1 & -> & (R1 & R2 & R3 & R4 & R5)); try lia; [assumption|].
  cbn [obind fst snd].
  pose proof (trim_ok 32 257 s0 286 ltac:(lia) ltac:(lia)) as TR0.
  pose proof (trim_ok 32 1 s1 30 ltac:(lia) ltac:(lia)) as TR1. cbv zeta in TR0, TR1.
  set (nl := trim 32 257 s0 286) in *. set (nd := trim 32 1 s1 30) in *.
  destruct TR0 as [N0 _]. destruct TR1 as [N1 _].
  set (LL := ztake nl s0) in *. set (DL := ztake nd s1) in *.
  assert (len LL <= nl) as LLL by (unfold LL; rewrite len_ztake; lia).
  assert (len DL <= nd) as LDL by (unfold DL; rewrite len_ztake; lia).
  assert (Forall (fun x => 0 <= x <= 15) (LL ++ DL)) as FB.
  { apply Forall_app. unfold LL, DL. rewrite !ztake_firstn. split; apply Forall_forall; intros x Hx.
    - apply (proj1 (Forall_forall _ _) Q2). rewrite <- (firstn_skipn (Z.to_nat nl) s0). apply in_or_app. now left.
    - apply (proj1 (Forall_forall _ _) R2). rewrite <- (firstn_skipn (Z.to_nat nd) s1). apply in_or_app. now left. }
  destruct (pack_sizes_ok (LL ++ DL) FB) as (its & cnt & -> & PK & CO); [rewrite len_app; lia|].
  pose proof (packs_len _ _ PK) as PL. rewrite len_app in PL.
  destruct (optimize_table_ok cnt 7) as (CL & kc & -> & (V1 & V2 & V3 & V4 & V5)); try (rewrite (co_len _ _ CO)); try lia; [apply CO|rewrite (co_sum _ _ CO); lia|].
  cbn [obind fst snd].
  assert (Forall (fun i => in_code CL (item_code i)) its) as INC.
  { apply Forall_forall. intros i Hi. pose proof (proj1 (Forall_forall _ _) (co_in _ _ CO) i Hi) as P. cbv beta in P.
    assert (0 <= item_code i) as HI.
    { pose proof (proj1 (Forall_forall _ _) (packs_items _ _ PK) i Hi) as OI. destruct i; cbn [item_ok item_code] in *; lia. }
    apply in_code_iff; [assumption|]. now apply V5. }
  pose proof (trim_swizzle_ok 20 CL 18 ltac:(lia) ltac:(lia)) as TS. cbv zeta in TS. destruct TS as [N2 _].
  set (m := trim_swizzle 20 CL 18) in *.
  rewrite put_bits_a_ok by (try change (2 ^ 2) with 4; lia). cbn [obind].
  rewrite put_bits_a_ok by (try change (2 ^ 5) with 32; lia). cbn [obind].
  rewrite put_bits_a_ok by (try change (2 ^ 5) with 32; lia). cbn [obind].
  rewrite put_bits_a_ok by (try change (2 ^ 4) with 16; lia). cbn [obind].
  rewrite put_sizes_a_ok by assumption. cbn [obind].
  rewrite put_packed_a_ok; try assumption; [reflexivity|exact (packs_items _ _ PK)|lia].
Qed.
Lemma start_static_a_ok o : start_static_block_a o = start_static_block o.
Proof.
  unfold start_static_block_a, start_static_block.
  destruct (static_table static_sizes 15); reflexivity.
Qed.

Lemma in_code_size L s : in_code L s -> at_index L s =? 0 = false.
Proof. intros [_ H]. change (code_len L s) with (at_index L s) in H. apply Z.eqb_neq. lia. Qed.
Section Loop.
Variables (t : tables) (buf : arr) (end_ : Z).
Hypothesis T : tables_ok t.
Hypothesis E64 : end_ <= LZ_CODE_BUF_SIZE.
Lemma lit_a c x : in_code (t_sizes0 t) c -> lit_fast_a t c x = Ok (lit_fast t c x).
Proof. intros I. unfold lit_fast_a. now rewrite in_code_size. Qed.
Lemma turn_a_ok R gs p flags pad x : rd t buf end_ R gs p flags pad -> R <> [] ->
  turn_a t buf end_ flags p x = one_turn t buf end_ flags p x.
Proof.
  intros I NE. destruct R as [|tk R]; [congruence|]. unfold turn_a, one_turn. rewrite (rd_bit _ _ _ _ _ _ _ _ _ I), negb_involutive.
  pose proof (rd_at _ _ _ E64 _ _ _ _ _ _ I) as A. pose proof (rd_step _ _ _ _ _ _ _ _ _ I) as ST. rewrite len_tok_bytes in ST.
  pose proof (rd_ok _ _ _ _ _ _ _ _ I) as OK. pose proof (rd_in _ _ _ _ _ _ _ _ I) as IN. cbn [app] in OK, IN.
  inversion OK as [|? ? OK1 OK2]; subst. inversion IN as [|? ? IN1 IN2]; subst.
  destruct tk as [c|n d]; cbn [is_copy] in *.
  2:{ destruct A as (A1 & A2 & A3). rewrite A1, A2, A3. cbn [obind].
      replace ((d - 1) mod 256 + 256 * ((d - 1) / 256)) with (d - 1) by (pose proof (Z.div_mod (d - 1) 256); lia).
      unfold match_fast_a. destruct IN1 as [J1 J2]. cbn [tok_sym] in J1. rewrite !in_code_size by assumption. reflexivity. }
  destruct IN1 as [J1 _]. cbn [tok_sym] in J1. rewrite A. cbn [obind]. rewrite lit_a by assumption. cbn [obind]. rewrite (rd_next_lit _ _ _ _ _ _ _ _ _ I eq_refl).
  destruct R as [|[c2|n2 d2] R]; cbn [is_copy negb]; [reflexivity| |reflexivity].
  pose proof (rd_at _ _ _ E64 _ _ _ _ _ _ ST) as A2. cbn beta iota in A2. rewrite A2. cbn [obind].
  pose proof (rd_step _ _ _ _ _ _ _ _ _ ST) as ST2. rewrite len_tok_bytes in ST2. cbn [is_copy] in ST2.
  replace (p + 2) with (p + 1 + 1) by lia.
  rewrite (rd_next_lit _ _ _ _ _ _ _ _ _ ST eq_refl). cbn [app] in OK2, IN2.
  inversion OK2 as [|? ? OK3 OK4]; subst. inversion IN2 as [|? ? IN3 IN4]; subst.
  destruct IN3 as [J2 _]. cbn [tok_sym] in J2. rewrite lit_a by assumption. cbn [obind].
  destruct R as [|[c3|n3 d3] R]; cbn [is_copy negb]; [reflexivity| |reflexivity].
  pose proof (rd_at _ _ _ E64 _ _ _ _ _ _ ST2) as A3. cbn beta iota in A3. rewrite A3. cbn [obind]. cbn [app] in IN4.
  inversion IN4 as [|? ? [J3 _] IN6]; subst. cbn [tok_sym] in J3. rewrite lit_a by assumption. reflexivity.
Qed.
Lemma lz_loop_a_ok turns : forall R gs p flags pad o, rd t buf end_ R gs p flags pad -> owf o -> ob_nb o < 8 ->
  lz_loop_a turns t buf end_ p flags o = lz_loop turns t buf end_ p flags o.
Proof.
  induction turns as [|turns IH]; intros R gs p flags pad o I W H8; cbn [lz_loop_a lz_loop]; [reflexivity|].
  destruct (Z.ltb_spec p end_) as [LT|LT]; [|reflexivity].
  assert (exists R1 gs1 p1 flags1 pad1, (if flags =? 1 then let* f := lz_at buf p in Ok (Z.lor f 256, p + 1) else Ok (flags, p)) = Ok (flags1, p1)
    /\ rd t buf end_ R1 gs1 p1 flags1 pad1 /\ R1 <> []) as (R1 & gs1 & p1 & flags1 & pad1 & -> & I1 & N1).
  { destruct R as [|tk R].
    - destruct gs as [|g gs].
      { pose proof (rd_end _ _ _ _ _ _ _ _ I) as RE. cbn [flat_map app layout] in RE. rewrite len_nil in RE. lia. }
      destruct (rd_pad _ _ _ _ _ _ _ _ I) as [|EP]; [discriminate|]. subst pad.
      assert (flags = 1) as -> by (rewrite (rd_flags _ _ _ _ _ _ _ _ I); reflexivity).
      destruct (rd_load _ _ _ E64 _ _ _ _ I) as (I1 & N1 & A). rewrite Z.eqb_refl, A. cbn [obind].
      exists g, gs, (p + 1), (Z.lor (bval (flags_of g)) 256), (8 - length g)%nat. auto.
    - exists (tk :: R), gs, p, flags, pad. rewrite (rd_flags _ _ _ _ _ _ _ _ I) at 1. rewrite app_assoc.
      rewrite bval_sentinel by discriminate. split; [reflexivity|]. split; [exact I|]. discriminate. }
  cbn [obind]. rewrite (turn_a_ok _ _ _ _ _ _ I1 N1). fold (one_turn t buf end_ flags1 p1 (ob_bb o, ob_nb o)).
  destruct (one_turn_ok t buf end_ T E64 R1 gs1 p1 flags1 pad1 (ob_bb o, ob_nb o) (lsb_bits (Z.to_nat (ob_nb o)) (ob_bb o)) I1 N1)
    as (x' & flags' & p' & S & R' & ER & NS & E1 & F1 & I2 & LP2).
  { destruct W as [W1 W2 W3 W4]. split; [exact W1|]. split; [exact W2|reflexivity]. }
  { rewrite lsb_len. pose proof (ow_nb o W). lia. }
  rewrite E1. cbn [obind]. destruct x' as [bb nb]. destruct (ob_n o >=? OUT_LIMIT); [reflexivity|].
  pose proof (fast_flush o bb nb _ W F1) as FF. cbv zeta in FF. destruct FF as (W' & H8' & _).
  eapply IH; [exact I2|exact W'|exact H8'].
Qed.
End Loop.
Lemma compress_lz_a_ok t buf gs o : tables_ok t -> let ts := concat gs in
  Forall tok_ok ts -> Forall (tok_in (t_sizes0 t) (t_sizes1 t)) ts -> in_code (t_sizes0 t) 256 ->
  groups_ok gs -> holds buf 0 (layout gs) -> len (layout gs) <= LZ_CODE_BUF_SIZE ->
  owf o -> ob_nb o < 8 ->
  compress_lz_codes_a t buf (len (layout gs)) o = compress_lz_codes t buf (len (layout gs)) o.
Proof.
  intros T ts OK IN IE G HB HL W H8. unfold compress_lz_codes_a, compress_lz_codes.
  assert (rd t buf (len (layout gs)) [] gs 0 1 0) as I by (constructor; try assumption; try reflexivity; now right).
  rewrite (lz_loop_a_ok t buf (len (layout gs)) T HL _ [] gs 0 1 0%nat o I W H8).
  destruct (lz_loop_ok t buf (len (layout gs)) T HL (Z.to_nat LZ_CODE_BUF_SIZE) [] gs 0 1 0%nat o I W H8) as (r & -> & RES).
  { rewrite Z2Nat.id by (unfold LZ_CODE_BUF_SIZE; lia). lia. }
  cbn [obind]. destruct r as [o1|]; [|reflexivity]. cbn [lz_result] in RES. destruct RES as (W1 & H81 & _).
  cbv zeta. set (o2 := mk_obuf _ _ 0 0).
  assert ((if ob_nb o1 =? 0 then Ok o2 else put_bits_a (low_bits (ob_bb o1) (ob_nb o1)) (ob_nb o1) o2)
          = Ok (if ob_nb o1 =? 0 then o2 else put_bits (low_bits (ob_bb o1) (ob_nb o1)) (ob_nb o1) o2)) as ->.
  { destruct (Z.eqb_spec (ob_nb o1) 0) as [E|E]; [reflexivity|]. pose proof (ow_nb _ W1). apply put_bits_a_ok; [lia|].
    unfold low_bits. rewrite land_mask by lia. apply Z.mod_pos_bound. apply pow2_pos. lia. }
  cbn [obind]. rewrite (put_code_a (t_sizes0 t) (t_codes0 t) 256 15); [reflexivity|apply T|lia|apply T|exact IE].
Qed.

Lemma put_raw_a_ok data dict : bytes_ok data -> forall i o,
  (forall j, 0 <= j < len data -> arr_get 0 dict (Z.land (i + j) DICT_MASK) = nth (Z.to_nat j) data 0) ->
  put_raw_a (length data) dict i o = Ok (put_raw (length data) dict i o).
Proof.
  induction data as [|x data IH]; intros B i o H; cbn [length put_raw_a put_raw]; [reflexivity|].
  inversion_clear B as [|? ? B1 B2]. rewrite len_cons in H. pose proof (len_nonneg _ data).
  pose proof (H 0 ltac:(lia)) as HZ. rewrite Z.add_0_r in HZ. cbn [Z.to_nat nth] in HZ. rewrite HZ.
  rewrite put_bits_a_ok by (unfold is_byte in *; try change (2 ^ 8) with 256; lia). cbn [obind].
  apply IH; [assumption|]. intros j Hj. replace (i + 1 + j) with (i + (j + 1)) by lia. rewrite H by lia.
  replace (Z.to_nat (j + 1)) with (S (Z.to_nat j)) by lia. reflexivity.
Qed.
Lemma land_16 n : 0 <= Z.land n 65535 < 65536.
Proof. change 65535 with (Z.ones 16). rewrite Z.land_ones by lia. change (2 ^ 16) with 65536. apply Z.mod_pos_bound. lia. Qed.
Theorem block_output_a_ok d ts out r finish : block_ready d ts out r ->
  block_output_a d finish = block_output d finish.
Proof.
  intros [CI HP EX HN HB RAW]. pose proof CI as CI'. destruct CI as [(gs & cur & LI)].
  unfold block_output_a, block_output. unfold close_flags in *. pose proof (final_buffer _ _ _ _ _ _ _ LI) as FB. cbv zeta in FB.
  set (buf := arr_set _ _ _) in *. set (end_ := d_p d - _) in *. set (gs' := final_groups gs cur) in *.
  destruct FB as (G & EC & HO & EE & EP). clearbody buf end_ gs'. subst end_.
  pose proof (lz_inv_size _ _ _ _ _ _ _ LI) as SZ.
  set (o0 := mk_obuf [] 0 (d_bb d) (d_nb d)) in *.
  assert (owf o0) as W0 by (constructor; cbn [o0 ob_nb ob_bb ob_n ob_rev]; [lia|lia|reflexivity|constructor]).
  rewrite put_bits_a_ok by (destruct finish; cbn; lia). cbn [obind].
  pose proof (put_bits_ok (if finish then 1 else 0) 1 o0 W0 ltac:(cbn [o0 ob_nb]; lia) ltac:(lia) ltac:(destruct finish; cbn; lia)) as [W1 H81 M1 L1 B1].
  set (o1 := put_bits (if finish then 1 else 0) 1 o0) in *. cbn [o0 ob_n ob_nb] in M1, L1. rewrite lsb_len in L1, B1.
  pose proof OUT_LIMIT_eq as OL.
  assert (ob_n o1 <= 1) as N1 by (pose proof (ow_nb _ W1); lia).
  specialize (B1 ltac:(cbn [o0 ob_n ob_nb]; lia)).
  assert (obits o0 = lsb_bits (Z.to_nat (d_nb d)) (d_bb d)) as OB0 by reflexivity.
  assert (8 * ob_n o1 + ob_nb o1 = d_nb d + 1) as P1.
  { pose proof (f_equal (@len bool) B1) as B. rewrite OB0 in B. unfold obits in B.
    rewrite !len_app, !bits_of_len, !lsb_len, !len_rev in B. destruct W1 as [V1 V2 V3 V4]. lia. }
  clearbody o1.
  unfold LZ_CODE_BUF_SIZE in HP. pose proof (lz_inv_len _ _ _ _ _ _ _ LI) as LL.
  assert (start_static_block_a o1 = start_static_block o1) as ES by apply start_static_a_ok.
  assert (forall x, (if d_total d <? 48 then start_static_block o1 else start_dynamic_block (d_count0 d) (d_count1 d) o1) = Ok x \/ start_static_block o1 = Ok x ->
    compress_lz_codes_a (fst x) buf (len (layout gs')) (snd x) = compress_lz_codes (fst x) buf (len (layout gs')) (snd x)) as LZ.
  { intros z HX. assert (start_static_block o1 = Ok z \/ start_dynamic_block (d_count0 d) (d_count1 d) o1 = Ok z) as [SX|SX]
      by (destruct HX as [HX|HX]; [destruct (d_total d <? 48); auto|auto]).
    - destruct (start_static_ok o1 W1 H81) as (t & o2 & E & E2 & T & TL & TD). rewrite SX in E. injection E as ->. cbn [fst snd].
      apply compress_lz_a_ok; auto.
      + rewrite EC. apply CI'.
      + rewrite EC, TL, TD. eapply Forall_impl; [|exact ci_ok]. apply fixed_in.
      + rewrite TL. vm_compute. split; [split; congruence|reflexivity].
      + unfold LZ_CODE_BUF_SIZE. lia.
      + apply E2.
      + apply E2.
    - 
      destruct (start_dynamic_ok (d_count0 d) (d_count1 d) o1) as (t & hdr & o2 & E & E2 & [T U0 U1 _ _ _ _]); try assumption; [lia|lia|].
      rewrite SX in E. injection E as ->. cbn [fst snd]. apply compress_lz_a_ok; auto.
      + rewrite EC. assumption.
      + rewrite EC. eapply counted_in; eassumption.
      + apply U0; [lia|now right].
      + unfold LZ_CODE_BUF_SIZE. lia.
      + apply E2.
      + apply E2. }
  assert ((if d_total d <? 48 then start_static_block_a o1 else start_dynamic_block_a (d_count0 d) (d_count1 d) o1)
          = (if d_total d <? 48 then start_static_block o1 else start_dynamic_block (d_count0 d) (d_count1 d) o1)) as ->.
  { destruct (d_total d <? 48); [exact ES|].  apply start_dynamic_a_ok; try assumption; lia. }
  destruct (coded_block d ts out r buf gs' o1 CI' HP SZ EX G EC HO EP W1 H81 N1) as (x & y & EX1 & EY & FY & A1 & A2 & _).
  rewrite EX1. cbn [obind]. rewrite (LZ x (or_introl EX1)), EY. cbn [obind].
  match goal with |- _ = obind ?X _ => set (CH := X) in * end.
  match goal with |- obind ?X _ = _ => set (CA := X) in * end.
  assert (exists o4, CH = Ok o4 /\ CA = Ok o4 /\ owf o4 /\ ob_nb o4 < 8) as (o4 & -> & -> & W4 & H84).
  { unfold CH, CA. destruct (_ && _ && _) eqn:CR.
    - apply andb_prop in CR. destruct CR as [_ C3]. apply Z.leb_le in C3. destruct (RAW C3) as (data & ER & EL & LM & BO & HD).
      destruct (raw_fits d out r o1 W1 H81 N1 data ER EL LM BO HD P1) as (A3 & A4 & _).
      exists (raw_output d o1 (d_total d)). split; [reflexivity|]. split; [|split; assumption].
      unfold raw_block_a. rewrite put_bits_a_ok by (try change (2 ^ 2) with 4; lia). cbn [obind].
      destruct (put_bits_ok 0 2 o1 W1 H81 ltac:(lia) ltac:(cbn; lia)) as [W2 H82 _ _ _].
      rewrite pad_byte_a_ok by (pose proof (ow_nb _ W2); lia). cbn [obind].
      rewrite put_bits_a_ok by (pose proof (land_16 (d_total d)); try change (2 ^ 16) with 65536; lia). cbn [obind].
      rewrite put_bits_a_ok by (pose proof (land_16 (Z.lxor (d_total d) 65535)); try change (2 ^ 16) with 65536; lia). cbn [obind].
      unfold raw_output. cbv zeta.
      assert (Z.to_nat (d_total d) = length data) as -> by (unfold len in EL; lia). now apply put_raw_a_ok.
    - rewrite FY. cbn [negb]. exists (snd y). auto. }
  cbn [obind]. destruct finish; [|reflexivity]. apply pad_byte_a_ok. pose proof (ow_nb _ W4). lia.
Qed.

(** ** The blocks *)
Lemma flush_block_a_ok inp em pos st ts d finish room : cinv inp em pos st ts d -> d_p d <= LZ_CODE_BUF_SIZE - 2 -> d_pend d = [] ->
  flush_block_a d finish room = flush_block d finish room.
Proof.
  intros C HP PE. pose proof (cinv_ready _ _ _ _ _ _ C HP) as BR.
  unfold flush_block_a, flush_block. rewrite PE, (block_output_a_ok _ _ _ _ finish BR).
  destruct (block_output_ok _ _ _ _ finish BR) as (o & bits & pad & -> & D). cbn [obind].
  assert (negb (ob_n o <? OUT_LIMIT) = false) as ->; [|reflexivity].
  apply negb_false_iff, Z.ltb_lt. exact (bd_last _ _ _ _ _ _ _ D).
Qed.
Lemma record_literal_size d c d3 : record_literal d c = Ok d3 -> d_lsize d3 = d_lsize d.
Proof.
  unfold record_literal. destruct (buf_put (d_buf d) (d_p d) c) as [b1| | |]; [|discriminate..]. cbn [obind].
  match goal with |- obind ?X _ = _ -> _ => destruct X as [[[[b2 p] f] l]| | |] end; [|discriminate..]. cbn [obind]. intros [= <-]. reflexivity.
Qed.
Lemma record_match_size d n k d3 : record_match d n k = Ok d3 -> d_lsize d3 = d_lsize d.
Proof.
  unfold record_match. cbv zeta. destruct (buf_put (d_buf d) (d_p d) _) as [b1| | |]; [|discriminate..]. cbn [obind].
  destruct (buf_put b1 _ _) as [b2| | |]; [|discriminate..]. cbn [obind].
  destruct (buf_put b2 _ _) as [b3| | |]; [|discriminate..]. cbn [obind].
  match goal with |- obind ?X _ = _ -> _ => destruct X as [[[[b4 p] f] l]| | |] end; [|discriminate..]. cbn [obind]. intros [= <-]. reflexivity.
Qed.
(** 1615-1680 *)
Definition step_token_a (d2 : tdefl) : outcome (tdefl * Z) :=
  let cur_pos := Z.land (d_lpos d2) DICT_MASK in
  let* m := find_match_a d2 in
  let (dist0, len0) := m in
  let drop := ((len0 =? MIN_MATCH_LEN) && (dist0 >=? 8 * 1024)) || (cur_pos =? dist0) in
  let dist1 := if drop then 0 else dist0 in
  let len1 := if drop then 0 else len0 in
  if dist1 =? 0 then
    let* d3 := record_literal d2 (arr_get 0 (d_dict d2) cur_pos) in Ok (d3, 1)
  else let* d3 := record_match_a d2 len1 dist1 in Ok (d3, len1).
Lemma step_a_ok inp em pos st ts d2 : cinv inp em pos st ts d2 -> step_token_a d2 = step_token d2.
Proof.
  intros []. unfold step_token_a, step_token, find_match_a. unfold MAX_MATCH_LEN. assert (d_lsize d2 <=? 258 = true) as -> by (apply Z.leb_le; lia).
  cbn [obind]. pose proof (find_match_ok d2 inp pos cv_bytes cv_ring cv_lpos cv_len cv_lsize cv_dsize cv_window) as F.
  destruct (find_match d2) as [dist0 len0]. unfold found in F. cbn [fst snd] in F. cbv zeta.
  set (drop := _ || _). clearbody drop. destruct (Z.eqb_spec (if drop then 0 else dist0) 0) as [Z0|Z0]; [reflexivity|].
  destruct drop; [lia|]. destruct F as [F|(F1 & F2 & _)]; [lia|]. unfold record_match_a, MIN_MATCH_LEN, TDEFL_LZ_DICT_SIZE.
  assert ((len0 >=? 3) && (dist0 >=? 1) && (dist0 <=? 32768) = true) as -> by lia. reflexivity.
Qed.
Lemma step_size d2 d3 m : step_token d2 = Ok (d3, m) -> d_lsize d3 = d_lsize d2.
Proof.
  unfold step_token. destruct (find_match d2) as [dist0 len0]. cbv zeta. destruct (_ =? 0).
  - destruct (record_literal _ _) as [x| | |] eqn:E; [|discriminate..]. cbn [obind]. intros [= <- _]. eapply record_literal_size. exact E.
  - destruct (record_match _ _ _) as [x| | |] eqn:E; [|discriminate..]. cbn [obind]. intros [= <- _]. eapply record_match_size. exact E.
Qed.
Lemma compress_normal_a_step turns d finish room src out :
  compress_normal_a (S turns) d finish room src out =
  if match src with [] => false | _ => true end || (finish && negb (d_lsize d =? 0)) then
    let (d2, src1) := (let (d1, src1) := fill d src in
       (set_position d1 (d_lpos d1) (d_lsize d1) (Z.min (TDEFL_LZ_DICT_SIZE - d_lsize d1) (d_dsize d1)), src1)) in
    if negb finish && (d_lsize d2 <? MAX_MATCH_LEN) then Ok (src1, out, d2)
    else
      let* x := step_token_a d2 in
      if d_lsize (fst x) >=? snd x then
        let d4 := moved (fst x) (snd x) in
        if block_full d4 then
          let* y := flush_block_a d4 false (room - len out) in
          match d_pend (snd y) with
          | [] => compress_normal_a turns (snd y) finish room src1 (out ++ fst y)
          | _ => Ok (src1, out ++ fst y, snd y)
          end
        else compress_normal_a turns d4 finish room src1 out
      else AssertFail
  else Ok (src, out, d).
Proof.
  cbn [compress_normal_a]. destruct (_ || _); [|reflexivity]. destruct (fill d src) as [d1 src1].
  destruct (negb finish && _); [reflexivity|]. unfold step_token_a, moved. destruct (find_match_a _) as [[dist0 len0]| | |]; try reflexivity.
  cbn [obind]. cbv zeta. destruct (_ =? 0); [destruct (record_literal _ _)|destruct (record_match_a _ _ _)]; reflexivity.
Qed.
Lemma compress_normal_a_ok finish room : forall turns src out inp em pos st ts d,
  cinv inp em pos st ts d -> entry d -> bytes_ok src -> d_pend d = [] -> len out <= room ->
  compress_normal_a turns d finish room src out = compress_normal turns d finish room src out.
Proof.
  pose proof OUT_LIMIT_eq as OL.
  induction turns as [|turns IH]; intros src out inp em pos st ts d C [EP EL] BS PE HR; [reflexivity|].
  rewrite compress_normal_step, compress_normal_a_step. destruct (_ || _) eqn:GO; [|reflexivity].
  destruct (cinv_fill _ _ _ _ _ _ src C BS) as (d2 & E2 & C2 & L2 & P2 & PE2 & SS2). cbv zeta in *. rewrite E2. clear E2.
  set (taken := ztake (258 - d_lsize d) src) in *. set (rest := zdrop (258 - d_lsize d) src) in *.
  assert (bytes_ok rest) as BR by (now apply bytes_ok_zdrop).
  pose proof (cv_lsize _ _ _ _ _ _ C) as LS0.
  destruct (negb finish && _) eqn:STOP; [reflexivity|].
  assert (1 <= d_lsize d2) as L1.
  { unfold MAX_MATCH_LEN in STOP. destruct finish; cbn [negb andb] in STOP; [|lia].
    apply orb_true_iff in GO. destruct GO as [G|G]; [|cbn [andb] in G; pose proof (len_nonneg _ taken); lia].
    destruct src as [|c src]; [discriminate|]. unfold taken in L2. rewrite len_ztake, len_cons in L2.
    pose proof (len_nonneg _ src). lia. }
  rewrite (step_a_ok _ _ _ _ _ _ C2).
  destruct (step_ok _ _ _ _ _ _ C2 L1) as (d3 & move & tok & E3 & HM & C4 & L4 & P4 & PE4 & SS4); [lia|].
  rewrite E3. cbn [obind fst snd]. assert (d_lsize d3 >=? move = true) as -> by (rewrite (step_size _ _ _ E3); lia).
  set (d4 := moved d3 move) in *. clearbody d4. cbv zeta.
  unfold LZ_CODE_BUF_SIZE in EP. pose proof (cv_lsize _ _ _ _ _ _ C2) as LS2.
  destruct (block_full d4) eqn:BF.
  - rewrite (flush_block_a_ok _ _ _ _ _ _ false (room - len out) C4); [|unfold LZ_CODE_BUF_SIZE; lia|congruence].
    destruct (flush_ok _ _ _ _ _ _ false (room - len out) C4) as (sent & d5 & E5 & SS5 & L5 & P5 & N5 & R5 & F5 & B5 & C5); [unfold LZ_CODE_BUF_SIZE; lia|lia|intros _; rewrite <- (cv_total _ _ _ _ _ _ C4); eapply codes_full; [apply C4|exact BF]|].
    rewrite E5. cbn [obind fst snd].
    destruct (d_pend d5) as [|c t] eqn:PD; [|reflexivity].
    eapply IH; [exact C5| |assumption|assumption|rewrite len_app; lia].
    split; [rewrite P5; unfold LZ_CODE_BUF_SIZE; lia|lia].
  - eapply IH; [exact C4| |assumption|congruence|assumption].
    split; [|lia]. unfold block_full in BF. apply orb_false_iff in BF. destruct BF as [BF _]. lia.
Qed.

(** ** Calls *)
Lemma tdefl_compress_a_ok finish room src inp sent d : now_at inp sent d ->
  0 <= room -> bytes_ok src ->
  tdefl_compress_a d src room finish = tdefl_compress d src room finish.
Proof.
  intros NA HR BS. unfold tdefl_compress_a, tdefl_compress. destruct (_ || _); [reflexivity|]. cbv zeta.
  destruct (_ || _) eqn:PQ; [reflexivity|]. cbn [set_status d_pend d_finished] in *.
  apply orb_false_iff in PQ. destruct PQ as [PE FI].
  destruct (d_pend d) eqn:PD; [|discriminate PE]. destruct NA as [(C & EN & PL0 & F & PV)|(_ & _ & F & _)]; [|congruence].
  match goal with |- context [compress_normal _ ?x] => set (d0 := x) end.
  destruct C as (pos & st & ts & C). rewrite PD, app_nil_r in C.
  assert (cinv inp sent pos st ts d0) as C0 by (same_cinv C).
  rewrite (compress_normal_a_ok finish room (compress_fuel d0 src) src [] inp sent pos st ts d0 C0 EN BS PD) by (rewrite len_nil; lia).
  destruct (compress_normal_ok finish room (compress_fuel d0 src) src [] inp sent pos st ts d0 C0 EN BS PD) as (src1 & out1 & taken & em1 & pos1 & st1 & ts1 & d1 & -> & []).
  { rewrite len_nil. lia. }
  { unfold compress_fuel. pose proof (cv_lsize _ _ _ _ _ _ C0). unfold len. lia. }
  cbn [obind app] in *. destruct (finish && (d_lsize d1 =? 0) && _ && _) eqn:LAST; [|reflexivity].
  apply andb_true_iff in LAST. destruct LAST as [LAST L4]. destruct (d_pend d1) eqn:PD1; [|discriminate L4].
  destruct rn_entry as [RE1 RE2]. unfold LZ_CODE_BUF_SIZE in RE1.
  rewrite (flush_block_a_ok _ _ _ _ _ _ true (room - len out1) rn_inv); [reflexivity|unfold LZ_CODE_BUF_SIZE; lia|assumption].
Qed.
Lemma deflate_loop_a_ok finish room : forall turns src inp sent d mv out, now_at inp sent d ->
  (d_wants d = true -> finish = true) -> bytes_ok src -> len out <= room ->
  deflate_loop_a turns d src room finish mv out = deflate_loop turns d src room finish mv out.
Proof.
  induction turns as [|turns IH]; intros src inp sent d mv out NA WF BS HO; [reflexivity|]. cbn [deflate_loop_a deflate_loop].
  rewrite (tdefl_compress_a_ok finish (room - len out) src inp sent d NA) by (assumption || lia).
  assert (exists status src1 o d1, tdefl_compress d src (room - len out) finish = Ok (status, src1, o, d1) /\ (status < 0 \/ status = TDEFL_DONE \/
    exists taken, called finish (room - len out) src inp sent d status src1 o taken d1)) as (status & src1 & o & d1 & -> & CL).
  { destruct (now_prev _ _ _ NA) as [NP|(NP & EN & PD)].
    - destruct (d_pend d) as [|c t] eqn:PD.
      + assert (running inp sent d) as RU.
        { destruct NA as [|EN]; [assumption|]. destruct EN as (_ & _ & _ & _ & _ & HP). rewrite PD, NP in HP. discriminate. }
        destruct (compress_running finish (room - len out) src inp sent d RU PD WF ltac:(lia) BS) as (status & src1 & o & taken & d1 & E & CL & _).
        exists status, src1, o, d1. split; [exact E|]. right. right. exists taken. exact CL.
      + destruct (compress_pending finish (room - len out) src inp sent d NA NP WF ltac:(lia)) as (status & o & d1 & E & CL & _); [rewrite PD; discriminate|].
        exists status, src, o, d1. split; [exact E|]. right. right. exists []. exact CL.
    - unfold tdefl_compress. rewrite NP. exists TDEFL_BAD_PARAM, src, [], (set_status d (d_finished d) (d_wants d) TDEFL_BAD_PARAM).
      split; [reflexivity|left; reflexivity]. }
  cbn [obind]. destruct CL as [CL|[CL|(taken & [])]].
  - assert (status <? 0 = true) as -> by lia. reflexivity.
  - subst status. reflexivity.
  - destruct (status <? 0); [reflexivity|]. destruct (status =? TDEFL_DONE); [reflexivity|].
    destruct (room - len (out ++ o) =? 0); [reflexivity|]. destruct (_ && negb finish); [reflexivity|].
    eapply IH; [exact cl_now|exact cl_wants| |rewrite len_app; lia].
    + rewrite cl_src in BS. apply bytes_ok_app in BS. exact (proj2 BS).
Qed.
Lemma mz_deflate_a_ok finish room src inp sent d : now_at inp sent d ->
  (d_wants d = true -> finish = true) -> bytes_ok src -> 0 <= room ->
  mz_deflate_a d src room finish = mz_deflate d src room finish.
Proof.
  intros NA WF BS HR. unfold mz_deflate_a, mz_deflate. destruct (d_prev d =? TDEFL_DONE); [reflexivity|].
  apply (deflate_loop_a_ok finish room 4 src inp sent d false [] NA WF BS). rewrite len_nil. exact HR.
Qed.
Lemma deflate_chunk_a_ok v finish : forall turns src inp sent d out, now_at inp sent d -> (d_wants d = true -> finish = true) ->
  (ended inp sent d -> src = [] /\ finish = true) -> bytes_ok src ->
  deflate_chunk_a turns d src finish out = deflate_chunk turns v d src finish out.
Proof.
  induction turns as [|turns IH]; intros src inp sent d out NA WF EF BS; [reflexivity|].
  cbn [deflate_chunk deflate_chunk_a]. rewrite (mz_deflate_a_ok finish CHUNK src inp sent d NA WF BS) by (rewrite CHUNK_eq; lia).
  destruct (mz_deflate_ok finish CHUNK src inp sent d NA WF EF BS) as (ret & src1 & o & taken & d1 & -> & []); [reflexivity|].
  cbn [obind]. assert (ret =? MZ_STREAM_ERROR = false) as -> by (now apply Z.eqb_neq). rewrite andb_false_r.
  destruct (CHUNK - len o =? 0); [|reflexivity].
  eapply IH; [exact df_now|exact df_wants| |].
  - intros EN. pose proof EN as (_ & _ & _ & W & _). split; [|auto]. apply df_end. apply EN.
  - rewrite df_src in BS. apply bytes_ok_app in BS. exact (proj2 BS).
Qed.
Lemma deflate_chunks_a_ok v : forall turns input inp sent d, running inp sent d -> d_wants d = false -> bytes_ok input ->
 
  deflate_chunks_a turns d input sent = deflate_chunks turns v d input sent.
Proof.
  induction turns as [|turns IH]; intros input inp sent d RU WF BI; [reflexivity|]. cbn [deflate_chunks deflate_chunks_a].
  pose proof (running_lsize _ _ _ RU) as LS. pose proof (len_nonneg _ input).
  assert (bytes_ok (ztake CHUNK input)) as BC by (now apply bytes_ok_ztake).
  set (finish := len (ztake CHUNK input) <? CHUNK).
  assert (ended inp sent d -> ztake CHUNK input = [] /\ finish = true) as EF by (intros (_ & _ & _ & W & _); congruence).
  rewrite (deflate_chunk_a_ok v finish (length input + 300) (ztake CHUNK input) inp sent d sent); auto; [|now left|rewrite WF; discriminate].
  destruct (chunk_ok v finish (length input + 300) (ztake CHUNK input) inp sent d sent) as (ret & o & d1 & -> & H1 & H2 & H3 & H4); auto.
  { now left. } { rewrite WF. discriminate. }
  { lia. }
  { rewrite len_ztake. unfold len. lia. }
  cbn [obind]. rewrite len_nil. cbn [Z.eqb negb]. rewrite andb_false_r.
  destruct finish eqn:F; [destruct (H4 eq_refl) as [_ ->]; rewrite Z.eqb_refl; cbn [negb]; now rewrite andb_false_r|].
  apply (IH _ (inp ++ ztake CHUNK input) (sent ++ o)).
  - destruct H1 as [|EN]; [assumption|]. destruct EN as (_ & _ & _ & W & _). discriminate (H3 W).
  - destruct (d_wants d1); [discriminate (H3 eq_refl)|reflexivity].
  - now apply bytes_ok_zdrop.
Qed.
Lemma new_running dict next buf : byte_cells buf -> running [] [] (new_tdefl dict next buf).
Proof.
  intros BC. split; [|split; [|split; [|split]]]; try reflexivity.
  - exists 0, 0, []. constructor; cbn [new_tdefl d_lsize d_lpos d_dsize d_start d_dict d_nb d_bb]; try reflexivity; try lia.
    + constructor.
    + apply ring_nil.
    + apply codes_inv_start; try reflexivity. exact BC.
    + constructor.
    + constructor.
    + apply pre_nil.
  - split; vm_compute; congruence.
  - vm_compute. congruence.
Qed.
Theorem npy_deflate_a_ok v dict next buf b : byte_cells buf -> bytes_ok b ->
  npy_deflate_a dict next buf b = npy_deflate v dict next buf b.
Proof.
  intros BC BB. unfold npy_deflate_a, npy_deflate. apply (deflate_chunks_a_ok v _ _ []); auto. now apply new_running.
Qed.
