(** Compressing the LZ codes, and recording them (src/miniz/miniz.cpp 1102-1189, 1550-1578). *)
From Coq Require Import ZArith List Bool Lia.
From Verif Require Import Base Arr Tinfl Tdefl BaseFacts DeflateSpec BitFacts HuffFacts HuffCost HuffBuild MinRed DeflHuff DeflBits DeflLz DeflLz2.
Import ListNotations.
Open Scope Z_scope.

Lemma refill o : owf o -> ob_nb o < 8 ->
  (let o2 := mk_obuf (ob_rev o) (ob_n o) 0 0 in
   if ob_nb o =? 0 then o2 else put_bits (low_bits (ob_bb o) (ob_nb o)) (ob_nb o) o2) = o.
Proof.
  intros [W1 W2 W3 W4] H8. cbv zeta. destruct o as [r n bb nb]. cbn [ob_rev ob_n ob_bb ob_nb] in *.
  destruct (Z.eqb_spec nb 0) as [->|E].
  - f_equal. change (2 ^ 0) with 1 in W2. lia.
  - unfold put_bits. cbn [ob_rev ob_n ob_bb ob_nb]. unfold low_bits. rewrite land_mask by lia.
    rewrite (Z.mod_small bb) by lia. rewrite Z.shiftl_0_r, Z.lor_0_l.
    assert (2 ^ nb <= 2 ^ 8) by (apply Z.pow_le_mono_r; lia). change (2 ^ 8) with 256 in *.
    rewrite u32_small by lia. change (0 + nb) with nb.
    cbn [drain ob_nb]. replace (nb >=? 8) with false by lia. reflexivity.
Qed.
Lemma compress_lz_ok t buf gs o : tables_ok t -> let ts := concat gs in
  let bits := toksb (t_sizes0 t) (t_sizes1 t) ts ++ codeword (t_sizes0 t) 256 in
  Forall tok_ok ts -> Forall (tok_in (t_sizes0 t) (t_sizes1 t)) ts -> in_code (t_sizes0 t) 256 ->
  groups_ok gs -> holds buf 0 (layout gs) -> len (layout gs) <= LZ_CODE_BUF_SIZE ->
  owf o -> ob_nb o < 8 ->
  exists b o', compress_lz_codes t buf (len (layout gs)) o = Ok (b, o') /\ ob_n o <= ob_n o' /\
    if (b : bool) then owf o' /\ ob_nb o' < 8 /\ obits o' = obits o ++ bits /\ ob_n o' < OUT_LIMIT
    else 8 * OUT_LIMIT <= 8 * ob_n o + ob_nb o + len bits.
Proof.
  intros T ts bits OK IN IE G HB HL W H8. unfold compress_lz_codes.
  destruct (lz_loop_ok t buf (len (layout gs)) T HL (Z.to_nat LZ_CODE_BUF_SIZE) [] gs 0 1 0%nat o) as (r & -> & RES); try assumption.
  { constructor; try assumption; try reflexivity. now right. }
  { rewrite Z2Nat.id by (unfold LZ_CODE_BUF_SIZE; lia). lia. }
  cbn [obind app] in *. destruct r as [o1|]; cbn [lz_result] in RES.
  - destruct RES as (W1 & H81 & EB & MO & EL). pose proof (refill o1 W1 H81) as RF. cbv zeta in RF |- *. rewrite RF. clear RF.
    destruct (to_codes0 t T 256 IE) as [CR CB]. pose proof (code_len_max _ 256 (to_max0 t T)) as CM.
    change (at_index (t_sizes0 t) 256) with (code_len (t_sizes0 t) 256).
    destruct (put_bits_ok (at_index (t_codes0 t) 256) (code_len (t_sizes0 t) 256) o1 W1 H81) as [E1 E2 E3 E4 E5]; [lia|assumption|].
    set (o4 := put_bits _ _ _) in *. rewrite CB in E4, E5. eexists _, o4. split; [reflexivity|]. split; [lia|].
    destruct (Z.ltb_spec (ob_n o4) OUT_LIMIT) as [HO|HO].
    + split; [assumption|]. split; [assumption|]. split; [|assumption].
      rewrite E5 by lia. rewrite EB. unfold bits, ts. now rewrite app_assoc.
    + unfold bits, ts. rewrite len_app. pose proof (ow_nb _ E1). lia.
  - exists false, o. split; [reflexivity|]. split; [lia|]. unfold bits, ts. rewrite len_app.
    pose proof (len_nonneg _ (codeword (t_sizes0 t) 256)). lia.
Qed.

(** ** Recording *)
Definition byte_cells (buf : arr) : Prop := forall i, 0 <= i -> 0 <= arr_get 0 buf i < 256.
Lemma byte_cells_set buf i x : byte_cells buf -> 0 <= i -> 0 <= x < 256 -> byte_cells (arr_set buf i x).
Proof.
  intros B Hi Hx j Hj. destruct (Z.eq_dec i j) as [->|N]; [rewrite arr_get_same|rewrite arr_get_other by lia]; auto.
Qed.
Definition full (gs : list (list token)) : Prop := Forall (fun g => length g = 8%nat) gs.
Definition cur_bytes (cur : list token) : bytes := flat_map tok_bytes cur.
Record lz_inv (ts : list token) (buf : arr) (p flags nleft : Z) (gs : list (list token)) (cur : list token) : Prop := {
  li_ts : ts = concat gs ++ cur;
  li_gs : full gs;
  li_cur : (length cur < 8)%nat;
  li_left : nleft = 8 - len cur;
  li_flags : flags = len (layout gs);
  li_p : p = flags + 1 + len (cur_bytes cur);
  li_cells : byte_cells buf;
  li_hold : holds buf 0 (layout gs);
  li_holdc : holds buf (flags + 1) (cur_bytes cur);
  li_bits : Z.shiftr (arr_get 0 buf flags) nleft = bval (flags_of cur)
}.
Lemma lz_inv_start buf : byte_cells buf -> lz_inv [] buf 1 0 8 [] [].
Proof.
  intros B. constructor; try reflexivity; try assumption; try apply Forall_nil; try exact I; [cbn; lia|].
  cbn [flags_of map bval]. pose proof (B 0 ltac:(lia)). rewrite Z.shiftr_div_pow2 by lia. now rewrite Z.div_small by lia.
Qed.
Lemma cur_bytes_snoc cur t : cur_bytes (cur ++ [t]) = cur_bytes cur ++ tok_bytes t.
Proof. unfold cur_bytes. rewrite flat_map_app. cbn [flat_map]. now rewrite app_nil_r. Qed.

(** a token's bytes are at p: add its flag *)
Lemma next_flag_ok ts buf p flags nleft gs cur t :
  lz_inv ts buf p flags nleft gs cur -> holds buf p (tok_bytes t) -> p < LZ_CODE_BUF_SIZE ->
  exists buf' p' flags' nleft' gs' cur',
    next_flag (if is_copy t then 128 else 0) buf (p + len (tok_bytes t)) flags nleft = Ok (buf', p', flags', nleft') /\
    lz_inv (ts ++ [t]) buf' p' flags' nleft' gs' cur' /\
    p + len (tok_bytes t) <= p' <= p + len (tok_bytes t) + 1.
Proof.
  intros [] HB HP. unfold next_flag, buf_put. pose proof (len_nonneg _ (layout gs)) as N1.
  pose proof (len_nonneg _ (cur_bytes cur)) as N2.
  replace ((0 <=? flags) && (flags <? LZ_CODE_BUF_SIZE)) with true by lia. cbn [obind].
  set (old := arr_get 0 buf flags) in *. pose proof (li_cells0 flags ltac:(lia)) as OR. fold old in OR.
  set (bit := if is_copy t then 128 else 0).
  assert (0 <= old / 2 < 128) as R2 by (split; [apply Z.div_pos; lia|apply Z.div_lt_upper_bound; lia]).
  assert (u8 (Z.lor (Z.shiftr old 1) bit) = old / 2 + bit) as EV.
  { rewrite Z.shiftr_div_pow2 by lia. change (2 ^ 1) with 2. unfold bit, u8. destruct (is_copy t).
    - change 128 with (Z.shiftl 1 7) at 1. rewrite lor_shift by (change (2 ^ 7) with 128; lia).
      change (1 * 2 ^ 7) with 128. apply Z.mod_small. lia.
    - rewrite Z.lor_0_r, Z.add_0_r. apply Z.mod_small. lia. }
  rewrite EV. set (new := old / 2 + bit). set (buf1 := arr_set buf flags new).
  assert (0 <= new < 256) as NR by (unfold new, bit; destruct (is_copy t); lia).
  assert (byte_cells buf1) as BC1 by (apply byte_cells_set; lia || assumption).
  assert (1 <= nleft <= 8) as NL by (unfold len in li_left0; lia).
  assert (Z.shiftr new (nleft - 1) = bval (flags_of (cur ++ [t]))) as EB.
  { unfold flags_of. rewrite map_app, bval_app. fold (flags_of cur). rewrite <- li_bits0, flags_length. cbn [map bval].
    rewrite !Z.shiftr_div_pow2 by lia. unfold new.
    assert (bit = b2z (is_copy t) * 2 ^ len cur * 2 ^ (nleft - 1)) as ->.
    { rewrite <- Z.mul_assoc, <- Z.pow_add_r by (try apply len_nonneg; lia).
      replace (len cur + (nleft - 1)) with 7 by lia. unfold bit. destruct (is_copy t); reflexivity. }
    rewrite Z.div_add by (apply Z.pow_nonzero; lia). rewrite Z.div_div by (try apply pow2_pos; lia).
    replace (2 * 2 ^ (nleft - 1)) with (2 ^ nleft) by (rewrite <- (Z.pow_succ_r 2 (nleft - 1)) by lia; f_equal; lia).
    unfold len. lia. }
  assert (holds buf1 0 (layout gs)) as H0 by (apply holds_set_other; [lia|lia|right; lia|assumption]).
  assert (holds buf1 (flags + 1) (cur_bytes (cur ++ [t]))) as H1.
  { apply holds_set_other; [lia|lia|left; lia|]. rewrite cur_bytes_snoc, holds_app. split; [assumption|]. now rewrite <- li_p0. }
  assert (len (cur ++ [t]) = len cur + 1) as LC by (rewrite len_app; reflexivity).
  destruct (Z.eqb_spec (nleft - 1) 0) as [E0|E0].
  - exists buf1, (p + len (tok_bytes t) + 1), (p + len (tok_bytes t)), 8, (gs ++ [cur ++ [t]]), [].
    split; [reflexivity|]. split; [|lia].
    assert (layout (gs ++ [cur ++ [t]]) = layout gs ++ new :: cur_bytes (cur ++ [t])) as EL.
    { unfold layout. rewrite flat_map_app. cbn [flat_map]. rewrite app_nil_r. unfold group_bytes at 2. f_equal. f_equal.
      rewrite <- EB, E0. apply Z.shiftr_0_r. }
    constructor.
    + rewrite concat_app. cbn [concat]. rewrite !app_nil_r, li_ts0. now rewrite app_assoc.
    + apply Forall_app. split; [assumption|]. constructor; [|constructor]. rewrite app_length. cbn [length].
      unfold len in li_left0. lia.
    + cbn; lia.
    + reflexivity.
    + rewrite EL, len_app, len_cons, cur_bytes_snoc, len_app. lia.
    + cbn [cur_bytes flat_map]. rewrite len_nil. lia.
    + assumption.
    + rewrite EL, holds_app. split; [assumption|]. cbn [holds]. rewrite Z.add_0_l, <- li_flags0. unfold buf1.
      rewrite arr_get_same. split; [reflexivity|assumption].
    + exact I.
    + cbn [flags_of map bval]. pose proof (len_nonneg _ (tok_bytes t)).
      pose proof (BC1 (p + len (tok_bytes t)) ltac:(lia)). rewrite Z.shiftr_div_pow2 by lia.
      now rewrite Z.div_small by (change (2 ^ 8) with 256; lia).
  - exists buf1, (p + len (tok_bytes t)), flags, (nleft - 1), gs, (cur ++ [t]). split; [reflexivity|].
    split; [|lia]. constructor; try assumption.
    + rewrite li_ts0. now rewrite app_assoc.
    + unfold len in *. lia.
    + lia.
    + rewrite cur_bytes_snoc, len_app. lia.
    + unfold buf1. rewrite arr_get_same. exact EB.
Qed.
Lemma lz_inv_set ts buf p flags nleft gs cur i x :
  lz_inv ts buf p flags nleft gs cur -> p <= i -> 0 <= x < 256 ->
  lz_inv ts (arr_set buf i x) p flags nleft gs cur.
Proof.
  intros [] Hi Hx. pose proof (len_nonneg _ (layout gs)). pose proof (len_nonneg _ (cur_bytes cur)).
  constructor; try assumption.
  - apply byte_cells_set; lia || assumption.
  - apply holds_set_other; [lia|lia|right; lia|assumption].
  - apply holds_set_other; [lia|lia|right; lia|assumption].
  - rewrite arr_get_other by lia. assumption.
Qed.
Definition tok_len (t : token) : Z := match t with Lit _ => 1 | Copy n _ => n end.
Definition toks_len (ts : list token) : Z := zsum (map tok_len ts).
Lemma toks_len_snoc ts t : toks_len (ts ++ [t]) = toks_len ts + tok_len t.
Proof. unfold toks_len. rewrite map_app, zsum_app. cbn [map zsum]. lia. Qed.
Lemma toks_len_bounds ts : Forall tok_ok ts -> len ts <= toks_len ts <= 258 * len ts.
Proof.
  induction 1 as [|t ts O _ IH]; [cbn; lia|]. unfold toks_len in *. cbn [map zsum]. rewrite len_cons.
  destruct t; cbn [tok_len tok_ok] in *; lia.
Qed.
Lemma bytes_of_group g : len (flat_map tok_bytes g) >= len g.
Proof.
  induction g as [|t g IH]; [cbn; lia|]. cbn [flat_map]. rewrite len_app, len_cons, len_tok_bytes. destruct (is_copy t); lia.
Qed.
Lemma layout_size gs : len (layout gs) >= len (flat_map tok_bytes (concat gs)).
Proof.
  induction gs as [|g gs IH]; [cbn; lia|]. cbn [layout flat_map concat] in *. rewrite flat_map_app, !len_app.
  unfold group_bytes at 1. rewrite len_cons. unfold layout in IH. lia.
Qed.
Lemma lz_inv_size ts buf p flags nleft gs cur : lz_inv ts buf p flags nleft gs cur ->
  len (flat_map tok_bytes ts) + 1 <= p.
Proof.
  intros []. rewrite li_ts0, flat_map_app, len_app. pose proof (layout_size gs). unfold cur_bytes in *. lia.
Qed.
Lemma lz_inv_len ts buf p flags nleft gs cur : lz_inv ts buf p flags nleft gs cur -> len ts + 1 <= p.
Proof. intros H. pose proof (lz_inv_size _ _ _ _ _ _ _ H). pose proof (bytes_of_group ts). lia. Qed.

Lemma zsum_update l i x : (i < length l)%nat -> zsum (nth_update l i x) = zsum l - nth i l 0 + x.
Proof.
  revert i. induction l as [|y l IH]; intros i H; [cbn in H; lia|]. destruct i; cbn [nth_update zsum nth]; [lia|].
  rewrite IH by (cbn in H; lia). lia.
Qed.
Lemma nth_le_zsum l i : Forall (fun x => 0 <= x) l -> 0 <= nth i l 0 <= zsum l.
Proof.
  intros F. revert i. induction F as [|y l Hy F IH]; intros i.
  - destruct i; cbn; lia.
  - assert (0 <= zsum l) by (specialize (IH (length l)); rewrite nth_overflow in IH; lia).
    destruct i; cbn [nth zsum]; [lia|]. specialize (IH i). lia.
Qed.
Definition counted (c0 c1 : list Z) (t : token) : Prop :=
  0 < at_index c0 (tok_sym t) /\ match t with Lit _ => True | Copy _ d => 0 < at_index c1 (dist_sym (d - 1)) end.
(** the distance symbol of a match *)
Definition far_sym (t : token) : Z := match t with Lit _ => 0 | Copy _ d => dist_sym (d - 1) end.
Lemma dotl_change counts : forall G s x, (s < length counts)%nat ->
  dotl (nth_update counts s x) G = dotl counts G + (x - nth s counts 0) * nth s G 0.
Proof.
  induction counts as [|c counts IH]; intros G s x H; cbn [length] in *; [lia|].
  destruct G as [|g G]; [destruct s; cbn [nth_update dotl nth]; lia|].
  destruct s as [|s]; cbn [nth_update dotl nth]; [lia|]. rewrite IH by lia. lia.
Qed.
Record codes_inv (ts : list token) (d : tdefl) : Prop := {
  ci_lz : exists gs cur, lz_inv ts (d_buf d) (d_p d) (d_flags d) (d_left d) gs cur;
  ci_ok : Forall tok_ok ts;
  ci_len0 : len (d_count0 d) = 288;
  ci_len1 : len (d_count1 d) = 32;
  ci_pos0 : Forall (fun x => 0 <= x) (d_count0 d);
  ci_pos1 : Forall (fun x => 0 <= x) (d_count1 d);
  ci_sum0 : zsum (d_count0 d) = len ts;
  ci_sum1 : zsum (d_count1 d) <= len ts;
  ci_in : Forall (counted (d_count0 d) (d_count1 d)) ts;
  ci_top0 : forall j, 286 <= j -> at_index (d_count0 d) j = 0;
  ci_top1 : forall j, 30 <= j -> at_index (d_count1 d) j = 0;
  ci_total : d_total d = toks_len ts;
  (* the counters are histograms of the symbols *)
  ci_hist0 : forall G, dotl (d_count0 d) G = zsum (map (fun t => at_index G (tok_sym t)) ts);
  ci_hist1 : forall G, dotl (d_count1 d) G = zsum (map (fun t => at_index G (far_sym t)) (filter is_copy ts))
}.
Lemma count_up_ok l i : Forall (fun x => 0 <= x) l -> zsum l < 65535 -> 0 <= i < len l ->
  len (count_up l i) = len l /\ Forall (fun x => 0 <= x) (count_up l i) /\ zsum (count_up l i) = zsum l + 1 /\
  0 < at_index (count_up l i) i /\ (forall j, at_index l j <= at_index (count_up l i) j) /\
  (forall j, i < j -> at_index (count_up l i) j = at_index l j) /\
  (forall G, dotl (count_up l i) G = dotl l G + at_index G i).
Proof.
  intros F Z1 Hi. unfold count_up. pose proof (nth_le_zsum l (Z.to_nat i) F) as B. fold (at_index l i) in B.
  rewrite u16_small by lia. assert (Z.to_nat i < length l)%nat as HL by (unfold len in Hi; lia).
  split; [unfold len; now rewrite nth_update_length|]. split; [apply Forall_update; [assumption|lia]|].
  split; [rewrite zsum_update by assumption; unfold at_index; lia|].
  unfold at_index in *. split; [rewrite nth_nth_update by assumption; rewrite Nat.eqb_refl; lia|].
  split; [|split]; [intros j|intros j Hj|intros G; rewrite dotl_change by assumption; lia]; rewrite nth_nth_update by assumption;
    (destruct (Nat.eqb_spec (Z.to_nat i) (Z.to_nat j)) as [E|E]; [rewrite <- E|]; lia).
Qed.
Lemma counted_mono c0 c1 c0' c1' t : (forall j, at_index c0 j <= at_index c0' j) ->
  (forall j, at_index c1 j <= at_index c1' j) -> counted c0 c1 t -> counted c0' c1' t.
Proof.
  intros H0 H1 [A B]. split; [specialize (H0 (tok_sym t)); lia|]. destruct t as [|n d]; [exact I|].
  specialize (H1 (dist_sym (d - 1))). lia.
Qed.
(** same fields outside the LZ codes *)
Definition same_window (d d' : tdefl) : Prop :=
  d_dict d' = d_dict d /\ d_next d' = d_next d /\ d_hash d' = d_hash d /\ d_lpos d' = d_lpos d /\
  d_lsize d' = d_lsize d /\ d_dsize d' = d_dsize d /\ d_start d' = d_start d /\ d_bb d' = d_bb d /\
  d_nb d' = d_nb d /\ d_pend d' = d_pend d /\ d_finished d' = d_finished d /\ d_wants d' = d_wants d /\
  d_prev d' = d_prev d.
Lemma record_literal_ok ts d c : codes_inv ts d -> d_p d <= LZ_CODE_BUF_SIZE - 8 -> 0 <= c < 256 ->
  exists d', record_literal d c = Ok d' /\ codes_inv (ts ++ [Lit c]) d' /\ same_window d d' /\ d_p d' <= d_p d + 2.
Proof.
  intros [(gs & cur & LI)] HP Hc. unfold LZ_CODE_BUF_SIZE in HP. unfold record_literal, buf_put at 1.
  pose proof (lz_inv_len _ _ _ _ _ _ _ LI) as LL. pose proof (len_nonneg _ ts).
  replace ((0 <=? d_p d) && (d_p d <? LZ_CODE_BUF_SIZE)) with true by (unfold LZ_CODE_BUF_SIZE; lia). cbn [obind].
  assert (lz_inv ts (arr_set (d_buf d) (d_p d) c) (d_p d) (d_flags d) (d_left d) gs cur) as LI2 by (apply lz_inv_set; [assumption|lia|lia]).
  destruct (next_flag_ok _ _ _ _ _ _ _ (Lit c) LI2) as (buf' & p' & flags' & nleft' & gs' & cur' & E & LI3 & PB).
  { cbn [tok_bytes holds]. now rewrite arr_get_same. } { unfold LZ_CODE_BUF_SIZE. lia. }
  cbn [is_copy] in E. rewrite len_tok_bytes in E, PB. cbn [is_copy] in E, PB. rewrite E. cbn [obind].
  eexists. split; [reflexivity|].
  destruct (count_up_ok (d_count0 d) c) as (C1 & C2 & C3 & C4 & C5 & C6 & C7); [assumption|lia|lia|].
  split; [|split; [|cbn; lia]].
  2:{ unfold same_window. repeat split; reflexivity. }
  constructor; cbn [set_codes d_buf d_p d_flags d_left d_count0 d_count1 d_total]; try assumption.
  - exists gs', cur'. exact LI3.
  - apply Forall_app. split; [assumption|]. constructor; [exact Hc|constructor].
  - lia.
  - rewrite len_app, len_cons, len_nil. lia.
  - rewrite len_app, len_cons, len_nil. lia.
  - apply Forall_app. split.
    + eapply Forall_impl; [|exact ci_in0]. intros t. apply counted_mono; [assumption|lia].
    + constructor; [|constructor]. split; [exact C4|exact I].
  - intros j Hj. rewrite C6 by lia. now apply ci_top2.
  - rewrite toks_len_snoc, ci_total0. reflexivity.
  - intros G. rewrite C7, ci_hist2, map_app, zs_app. cbn [map zsum tok_sym]. lia.
  - intros G. rewrite ci_hist3, filter_app. cbn [filter is_copy]. now rewrite app_nil_r.
Qed.
Lemma record_match_ok ts d n k : codes_inv ts d -> d_p d <= LZ_CODE_BUF_SIZE - 8 -> 3 <= n <= 258 -> 1 <= k <= 32768 ->
  exists d', record_match d n k = Ok d' /\ codes_inv (ts ++ [Copy n k]) d' /\ same_window d d' /\ d_p d' <= d_p d + 4.
Proof.
  intros [(gs & cur & LI)] HP Hn Hk. unfold LZ_CODE_BUF_SIZE in HP. unfold record_match, buf_put.
  pose proof (lz_inv_len _ _ _ _ _ _ _ LI) as LL. pose proof (len_nonneg _ ts).
  replace ((0 <=? d_p d) && (d_p d <? LZ_CODE_BUF_SIZE)) with true by (unfold LZ_CODE_BUF_SIZE; lia). cbn [obind].
  replace ((0 <=? d_p d + 1) && (d_p d + 1 <? LZ_CODE_BUF_SIZE)) with true by (unfold LZ_CODE_BUF_SIZE; lia). cbn [obind].
  replace ((0 <=? d_p d + 2) && (d_p d + 2 <? LZ_CODE_BUF_SIZE)) with true by (unfold LZ_CODE_BUF_SIZE; lia). cbn [obind].
  rewrite (u32_small (k - 1)) by lia.
  replace (u8 (n - MIN_MATCH_LEN)) with (n - 3) by (unfold u8, MIN_MATCH_LEN; rewrite Z.mod_small by lia; reflexivity).
  replace (Z.land (k - 1) 255) with ((k - 1) mod 256) by (change 255 with (Z.ones 8); rewrite Z.land_ones by lia; reflexivity).
  assert (0 <= (k - 1) / 256 < 128) as KD by (split; [apply Z.div_pos; lia|apply Z.div_lt_upper_bound; lia]).
  replace (u8 (Z.shiftr (k - 1) 8)) with ((k - 1) / 256)
    by (rewrite Z.shiftr_div_pow2 by lia; change (2 ^ 8) with 256; unfold u8; rewrite Z.mod_small by lia; reflexivity).
  pose proof (Z.mod_pos_bound (k - 1) 256 ltac:(lia)) as KM.
  set (buf3 := arr_set _ (d_p d + 2) _).
  assert (lz_inv ts buf3 (d_p d) (d_flags d) (d_left d) gs cur) as LI2 by (unfold buf3; repeat apply lz_inv_set; try assumption; lia).
  destruct (next_flag_ok _ _ _ _ _ _ _ (Copy n k) LI2) as (buf' & p' & flags' & nleft' & gs' & cur' & E & LI3 & PB).
  { cbn [tok_bytes holds]. unfold buf3. replace (d_p d + 1 + 1) with (d_p d + 2) by lia.
    rewrite arr_get_same. rewrite (arr_get_other _ _ (d_p d + 2) (d_p d)), (arr_get_other _ _ (d_p d + 1) (d_p d)) by lia. rewrite arr_get_same.
    rewrite (arr_get_other _ _ (d_p d + 2)), arr_get_same by lia. auto. } { unfold LZ_CODE_BUF_SIZE. lia. }
  cbn [is_copy] in E. rewrite len_tok_bytes in E, PB. cbn [is_copy] in E, PB.
  unfold next_flag, buf_put in E. unfold next_flag, buf_put. rewrite E. cbn [obind].
  eexists. split; [reflexivity|].
  destruct (len_facts (n - 3)) as (lb & lx & L1 & L2 & L3 & L4 & L5 & L6); [lia|].
  destruct (dist_facts (k - 1)) as (db & dx & D1 & D2 & D3 & D4 & D5 & D6); [lia|].
  destruct (count_up_ok (d_count0 d) (at_index s_tdefl_len_sym (n - 3))) as (C1 & C2 & C3 & C4 & C5 & C6 & C7); [assumption|lia|lia|].
  destruct (count_up_ok (d_count1 d) (dist_sym (k - 1))) as (K1 & K2 & K3 & K4 & K5 & K6 & K7); [assumption|lia|lia|].
  split; [|split; [|cbn; lia]].
  2:{ unfold same_window. repeat split; reflexivity. }
  unfold MIN_MATCH_LEN. replace (n >=? 3) with true by lia.
  constructor; cbn [set_codes d_buf d_p d_flags d_left d_count0 d_count1 d_total]; try assumption.
  - exists gs', cur'. exact LI3.
  - apply Forall_app. split; [assumption|]. constructor; [split; lia|constructor].
  - lia.
  - lia.
  - rewrite len_app, len_cons, len_nil. lia.
  - rewrite len_app, len_cons, len_nil. lia.
  - apply Forall_app. split.
    + eapply Forall_impl; [|exact ci_in0]. intros t. apply counted_mono; assumption.
    + constructor; [|constructor]. split; [exact C4|exact K4].
  - intros j Hj. rewrite C6 by lia. now apply ci_top2.
  - intros j Hj. rewrite K6 by lia. now apply ci_top3.
  - rewrite toks_len_snoc, ci_total0. cbn [tok_len]. pose proof (toks_len_bounds ts ci_ok0). apply u32_small. lia.
  - intros G. rewrite C7, ci_hist2, map_app, zs_app. cbn [map zsum tok_sym]. lia.
  - intros G. rewrite K7, ci_hist3, filter_app, map_app, zs_app. cbn [filter is_copy map zsum far_sym]. lia.
Qed.
