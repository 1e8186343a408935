(** One block of output (src/miniz/miniz.cpp 1245-1308). *)
From Coq Require Import ZArith List Bool Lia.
From Verif Require Import Base Arr Tinfl Tdefl BaseFacts DeflateSpec BitFacts HuffFacts HuffCost HuffBuild MinRed DeflHuff DeflBits DeflLz DeflLz2 DeflLz3 DeflRle DeflHead.
Import ListNotations.
Open Scope Z_scope.

Definition final_groups (gs : list (list token)) (cur : list token) : list (list token) :=
  gs ++ match cur with [] => [] | _ => [cur] end.
Lemma final_buffer ts buf p flags nleft gs cur : lz_inv ts buf p flags nleft gs cur ->
  let buf' := arr_set buf flags (u8 (Z.shiftr (arr_get 0 buf flags) nleft)) in
  let end_ := p - (if nleft =? 8 then 1 else 0) in
  let gs' := final_groups gs cur in
  groups_ok gs' /\ concat gs' = ts /\ holds buf' 0 (layout gs') /\ end_ = len (layout gs') /\ end_ <= p.
Proof.
  intros []. cbv zeta. unfold final_groups.
  assert (forall gs (cur : list token), full gs -> (length cur < 8)%nat -> groups_ok (gs ++ match cur with [] => [] | _ => [cur] end)) as GO.
  { clear. induction gs as [|g gs IH]; intros cur F HC; cbn [app groups_ok].
    - destruct cur; cbn [groups_ok]; [exact I|]. split; [cbn [length] in *; lia|]. split; [now left|exact I].
    - inversion_clear F. split; [lia|]. split; [now right|]. now apply IH. }
  split; [now apply GO|]. pose proof (len_nonneg _ (layout gs)) as LN.
  assert (u8 (Z.shiftr (arr_get 0 buf flags) nleft) = bval (flags_of cur)) as EV.
  { rewrite li_bits. pose proof (bval_range (flags_of cur)) as R. rewrite flags_length in R.
    assert (2 ^ Z.of_nat (length cur) <= 2 ^ 8) by (apply Z.pow_le_mono_r; lia). change (2 ^ 8) with 256 in *.
    unfold u8. apply Z.mod_small. lia. }
  rewrite EV. destruct cur as [|t cur].
  - rewrite app_nil_r. split; [rewrite li_ts, app_nil_r; reflexivity|]. rewrite len_nil in li_left.
    assert (nleft = 8) as -> by lia. rewrite Z.eqb_refl.
    split; [apply holds_set_other; [lia|lia|right; lia|assumption]|]. cbn [cur_bytes flat_map] in li_p. rewrite len_nil in li_p. lia.
  - split; [rewrite concat_app; cbn [concat]; rewrite app_nil_r; now rewrite li_ts|].
    rewrite len_cons in li_left. pose proof (len_nonneg _ cur).
    replace (nleft =? 8) with false by lia. unfold layout. rewrite flat_map_app. cbn [flat_map]. rewrite app_nil_r.
    fold (layout gs). unfold group_bytes at 1 2. fold (cur_bytes (t :: cur)). split; [|rewrite len_app, len_cons; lia].
    rewrite holds_app. split; [apply holds_set_other; [lia|lia|right; lia|assumption]|].
    cbn [holds]. rewrite Z.add_0_l, <- li_flags, arr_get_same. split; [reflexivity|].
    apply holds_set_other; [lia|lia|left; lia|assumption].
Qed.

Lemma put_raw_ok data dict : bytes_ok data -> forall i o,
  (forall j, 0 <= j < len data -> arr_get 0 dict (Z.land (i + j) DICT_MASK) = nth (Z.to_nat j) data 0) ->
  owf o -> ob_nb o < 8 -> emits o (put_raw (length data) dict i o) (bits_of data).
Proof.
  induction data as [|x data IH]; intros B i o H W H8; cbn [length put_raw]; [now apply emits_nil|].
  inversion_clear B as [|? ? B1 B2]. rewrite len_cons in H. pose proof (len_nonneg _ data).
  pose proof (H 0 ltac:(lia)) as HZ. rewrite Z.add_0_r in HZ. cbn [Z.to_nat nth] in HZ. rewrite HZ.
  rewrite bits_of_cons. pose proof (put_bits_ok x 8 o W H8 ltac:(lia) ltac:(unfold is_byte in *; change (2 ^ 8) with 256; lia)) as E1.
  eapply emits_trans; [exact E1|]. apply IH; [assumption| |apply E1|apply E1].
  intros j Hj. replace (i + 1 + j) with (i + (j + 1)) by lia. rewrite H by lia.
  replace (Z.to_nat (j + 1)) with (S (Z.to_nat j)) by lia. reflexivity.
Qed.

(** what block_output needs to know about the state *)
Record block_ready (d : tdefl) (ts : list token) (out r : bytes) : Prop := {
  br_codes : codes_inv ts d;
  br_p : d_p d <= LZ_CODE_BUF_SIZE - 2;
  br_exp : expands out ts r;
  br_nb : 0 <= d_nb d < 8;
  br_bb : 0 <= d_bb d < 2 ^ d_nb d;
  br_raw : u32 (d_lpos d - d_start d) <= d_dsize d ->
    exists data, r = out ++ data /\ len data = d_total d /\ len data <= 32768 /\ bytes_ok data /\
      forall j, 0 <= j < len data -> arr_get 0 (d_dict d) (Z.land (d_start d + j) DICT_MASK) = nth (Z.to_nat j) data 0
}.
Record block_done (d : tdefl) (finish : bool) (out r : bytes) (o : obuf) (bits pad : list bool) : Prop := {
  bd_wf : owf o;
  bd_nb : ob_nb o < 8;
  bd_last : ob_n o < OUT_LIMIT;
  bd_bits : obits o = lsb_bits (Z.to_nat (d_nb d)) (d_bb d) ++ (finish :: bits) ++ pad;
  bd_pad : if finish then ob_nb o = 0 /\ len pad < 8 else pad = [];
  bd_block : forall pos, pos mod 8 = d_nb d -> block_bits (pos + 1) out bits r;
  (* the size of the block *)
  bd_cost : 7560 * (8 * ob_n o + ob_nb o) <= 69268 * d_total d + 7560 * (d_nb d + 4618);
  bd_short : u32 (d_lpos d - d_start d) <= d_dsize d -> d_nb d = 0 -> finish = true -> ob_n o <= d_total d + 5
}.
Lemma emits_bits_len o o' bits : owf o -> emits o o' bits -> obits o' = obits o ++ bits ->
  8 * ob_n o' + ob_nb o' = 8 * ob_n o + ob_nb o + len bits.
Proof.
  intros [W1 _ W3 _] [[V1 _ V3 _] _ _ _ _] E. apply (f_equal (@len bool)) in E. unfold obits in E.
  rewrite !len_app, !bits_of_len, !lsb_len, !len_rev in E. lia.
Qed.
Lemma lxor_16 n : 0 <= n < 65536 -> Z.land (Z.lxor n 65535) 65535 = 65535 - n.
Proof.
  intros H. assert (Z.land (Z.lxor n 65535) 65535 = Z.lxor n 65535) as ->.
  { change 65535 with (Z.ones 16) at 2. rewrite Z.land_ones by lia. apply Z.mod_small.
    assert (0 <= Z.lxor n 65535) by (apply Z.lxor_nonneg; lia). split; [assumption|].
    destruct (Z.eq_dec (Z.lxor n 65535) 0) as [->|N]; [reflexivity|]. apply Z.log2_lt_pow2; [lia|].
    eapply Z.le_lt_trans; [apply Z.log2_lxor; lia|]. apply Z.max_lub_lt; [|reflexivity].
    destruct (Z.eq_dec n 0) as [->|]; [reflexivity|]. apply Z.log2_lt_pow2; [lia|]. change (2 ^ 16) with 65536. lia. }
  assert (Z.lxor n 65535 = 65535 - n) as ->; [|reflexivity].
  assert (Z.land n (Z.lxor n 65535) = 0) as L0.
  { apply Z.bits_inj'. intros k Hk. rewrite Z.land_spec, Z.lxor_spec, Z.bits_0.
    change 65535 with (Z.ones 16). destruct (Z_lt_le_dec k 16) as [K|K].
    - rewrite (Z.ones_spec_low 16 k) by lia. destruct (Z.testbit n k); reflexivity.
    - destruct (Z.eq_dec n 0) as [->|]; [now rewrite Z.bits_0|].
      rewrite (Z.bits_above_log2 n k); [reflexivity|lia|]. assert (Z.log2 n < 16) by (apply Z.log2_lt_pow2; [lia|change (2 ^ 16) with 65536; lia]). lia. }
  pose proof (Z.add_nocarry_lxor n (Z.lxor n 65535) L0) as E. rewrite <- Z.lxor_assoc, Z.lxor_nilpotent, Z.lxor_0_l in E. lia.
Qed.
Lemma counted_in c0 c1 t ts : Forall tok_ok ts -> Forall (counted c0 c1) ts ->
  (forall s, 0 <= s -> 0 < at_index c0 s \/ s = 256 -> in_code (t_sizes0 t) s) ->
  (forall s, 0 <= s -> 0 < at_index c1 s -> in_code (t_sizes1 t) s) ->
  Forall (tok_in (t_sizes0 t) (t_sizes1 t)) ts.
Proof.
  intros OK CN U0 U1. apply Forall_forall. intros k Hk.
  pose proof (proj1 (Forall_forall _ _) CN k Hk) as [C0 C1].
  pose proof (proj1 (Forall_forall _ _) OK k Hk) as O. destruct k as [c|n e]; cbn [tok_ok tok_sym] in *; unfold tok_in; cbn [tok_sym].
  - split; [apply U0; lia|exact I].
  - destruct (len_facts (n - 3)) as (? & ? & ? & ? & ? & ? & ?); [lia|]. destruct (dist_facts (e - 1)) as (? & ? & ? & ? & ? & ? & ?); [lia|].
    split; [apply U0; lia|apply U1; lia].
Qed.
Lemma OUT_LIMIT_eq : OUT_LIMIT = 85180.
Proof. reflexivity. Qed.
Lemma obits_size o : owf o -> len (obits o) = 8 * ob_n o + ob_nb o.
Proof. intros []. unfold obits. rewrite len_app, bits_of_len, lsb_len, len_rev. lia. Qed.
(** the bits of the tokens, by their symbols' code lengths *)
Definition copies (ts : list token) : Z := len (filter is_copy ts).
Lemma toksb_size LL DL ts : Forall tok_ok ts -> Forall (fun x => 0 <= x <= 15) LL -> Forall (fun x => 0 <= x <= 15) DL ->
  len (toksb LL DL ts) <= zsum (map (fun t => at_index LL (tok_sym t)) ts)
                          + zsum (map (fun t => at_index DL (far_sym t)) (filter is_copy ts)) + 18 * copies ts.
Proof.
  intros OK M0 M1. unfold copies. induction OK as [|t ts O _ IH]; [cbn; lia|]. unfold toksb in *. cbn [flat_map map zsum]. rewrite len_app.
  destruct t as [c|n e]; cbn [filter is_copy tokb tok_sym map zsum far_sym tok_ok] in *.
  - rewrite codeword_len by (pose proof (code_len_max LL c M0); lia). change (code_len LL c) with (at_index LL c). lia.
  - destruct (len_facts (n - 3)) as (lb & lx & L1 & L2 & L3 & L4 & L5 & L6); [lia|].
    destruct (dist_facts (e - 1)) as (db & dx & D1 & D2 & D3 & D4 & D5 & D6); [lia|].
    pose proof (code_len_max LL (at_index s_tdefl_len_sym (n - 3)) M0). pose proof (code_len_max DL (dist_sym (e - 1)) M1).
    rewrite ?len_app, ?codeword_len, ?lsb_len, len_cons by lia. change (code_len DL (dist_sym (e - 1))) with (at_index DL (dist_sym (e - 1))).
    change (code_len LL (at_index s_tdefl_len_sym (n - 3))) with (at_index LL (at_index s_tdefl_len_sym (n - 3))). lia.
Qed.
(** ... and by the bytes the tokens stand for *)
Lemma short_extra l : 0 <= l < 8 -> at_index s_tdefl_len_extra l = 0.
Proof. intros H. assert (l = 0 \/ l = 1 \/ l = 2 \/ l = 3 \/ l = 4 \/ l = 5 \/ l = 6 \/ l = 7) as C by lia. repeat (destruct C as [->|C]; [reflexivity|]). subst. reflexivity. Qed.
Lemma toksb_cost LL DL ts : Forall tok_ok ts -> Forall (fun x => 0 <= x <= 15) LL -> Forall (fun x => 0 <= x <= 15) DL ->
  7560 * len (toksb LL DL ts) <= 7560 * (zsum (map (fun t => at_index LL (tok_sym t)) ts)
                          + zsum (map (fun t => at_index DL (far_sym t)) (filter is_copy ts)))
                          + 69268 * (toks_len ts - len ts) - 38444 * copies ts.
Proof.
  intros OK M0 M1. unfold copies, toks_len. induction OK as [|t ts O _ IH]; [cbn; lia|]. unfold toksb in *. cbn [flat_map map zsum]. rewrite len_app, len_cons.
  destruct t as [c|n e]; cbn [filter is_copy tokb tok_sym map zsum far_sym tok_ok tok_len] in *.
  - rewrite codeword_len by (pose proof (code_len_max LL c M0); lia). change (code_len LL c) with (at_index LL c). lia.
  - destruct (len_facts (n - 3)) as (lb & lx & L1 & L2 & L3 & L4 & L5 & L6); [lia|].
    destruct (dist_facts (e - 1)) as (db & dx & D1 & D2 & D3 & D4 & D5 & D6); [lia|].
    pose proof (short_extra (n - 3)) as SE.
    pose proof (code_len_max LL (at_index s_tdefl_len_sym (n - 3)) M0). pose proof (code_len_max DL (dist_sym (e - 1)) M1).
    rewrite ?len_app, ?codeword_len, ?lsb_len, len_cons by lia. change (code_len DL (dist_sym (e - 1))) with (at_index DL (dist_sym (e - 1))).
    change (code_len LL (at_index s_tdefl_len_sym (n - 3))) with (at_index LL (at_index s_tdefl_len_sym (n - 3))).
    rewrite L2 in *. rewrite D2. rewrite !Z2Nat.id by lia. destruct (Z_lt_le_dec (n - 3) 8) as [N8|N8]; [rewrite SE by lia|]; lia.
Qed.
Lemma fixed_cost ts : Forall tok_ok ts -> 7560 * len (toksb fixed_lengths fixed_distances ts) <= 69268 * toks_len ts.
Proof.
  intros OK.
  assert (Forall (fun x => 0 <= x <= 9) fixed_lengths) as F0
    by (unfold fixed_lengths; repeat (apply Forall_app; split); apply Forall_forall; intros x Hx; apply repeat_spec in Hx; lia).
  assert (Forall (fun x => 0 <= x <= 5) fixed_distances) as F1
    by (apply Forall_forall; intros x Hx; apply repeat_spec in Hx; lia).
  assert (forall L s m, 0 <= m -> Forall (fun x => 0 <= x <= m) L -> 0 <= at_index L s <= m) as AT.
  { intros L s m Hm M. unfold at_index. destruct (nth_in_or_default (Z.to_nat s) L 0) as [N|E]; [|lia].
    exact (proj1 (Forall_forall _ _) M _ N). }
  pose proof (toksb_cost fixed_lengths fixed_distances ts OK) as TC.
  assert (zsum (map (fun t => at_index fixed_lengths (tok_sym t)) ts) <= 9 * len ts) as S0.
  { clear - F0 AT. induction ts as [|t ts IH]; [cbn; lia|]. cbn [map zsum]. rewrite len_cons. pose proof (AT _ (tok_sym t) 9 ltac:(lia) F0). lia. }
  assert (zsum (map (fun t => at_index fixed_distances (far_sym t)) (filter is_copy ts)) <= 5 * copies ts) as S1.
  { unfold copies. clear - F1 AT. generalize (filter is_copy ts). clear ts. intros ts. induction ts as [|t ts IH]; [cbn; lia|].
    cbn [map zsum]. rewrite len_cons. pose proof (AT _ (far_sym t) 5 ltac:(lia) F1). lia. }
  assert (0 <= copies ts) by (unfold copies; apply len_nonneg).
  pose proof (toks_len_bounds ts OK).
  specialize (TC ltac:(eapply Forall_impl; [|exact F0]; cbv beta; lia) ltac:(eapply Forall_impl; [|exact F1]; cbv beta; lia)). lia.
Qed.
(** a token takes a byte or three, and eight tokens take another *)
Lemma layout_groups gs : groups_ok gs -> 9 * len (concat gs) + 16 * copies (concat gs) <= 8 * len (layout gs).
Proof.
  unfold copies. induction gs as [|g gs IH]; intros G; [cbn; lia|]. destruct G as (G1 & _ & G3). specialize (IH G3).
  cbn [layout flat_map concat] in *. unfold layout in IH. rewrite filter_app, !len_app. unfold group_bytes at 1. rewrite len_cons.
  assert (len (flat_map tok_bytes g) = len g + 2 * len (filter is_copy g)) as ->; [|assert (len g <= 8) by (unfold len; lia); lia].
  clear. induction g as [|t g IH]; [reflexivity|]. cbn [flat_map filter]. rewrite len_app, IH, len_tok_bytes, len_cons. destruct (is_copy t); rewrite ?len_cons; lia.
Qed.
Lemma dotl_unit k : forall c, dotl c (repeat 0 k ++ [1]) = nth k c 0.
Proof. induction k as [|k IH]; intros [|x c]; cbn [repeat app dotl nth]; try reflexivity; [destruct c; cbn; lia|]. rewrite IH. lia. Qed.
Lemma dotl_ones : forall c, dotl c (repeat 1 (length c)) = zsum c.
Proof. induction c as [|x c IH]; cbn [length repeat dotl zsum]; [reflexivity|]. rewrite IH. lia. Qed.
Section Block.
Variables (d : tdefl) (ts : list token) (out r : bytes) (buf : arr) (gs' : list (list token)) (o1 : obuf).
Hypothesis CI : codes_inv ts d.
Hypothesis HP : d_p d <= LZ_CODE_BUF_SIZE - 2.
Hypothesis SZ : len (flat_map tok_bytes ts) + 1 <= d_p d.
Hypothesis EX : expands out ts r.
Hypothesis G : groups_ok gs'.
Hypothesis EC : concat gs' = ts.
Hypothesis HO : holds buf 0 (layout gs').
Hypothesis EP : len (layout gs') <= d_p d.
Hypothesis W1 : owf o1.
Hypothesis H81 : ob_nb o1 < 8.
Hypothesis N1 : ob_n o1 <= 1.

(** the fixed code always fits *)
Lemma static_fits : exists t o2 o3, start_static_block o1 = Ok (t, o2) /\
  compress_lz_codes t buf (len (layout gs')) o2 = Ok (true, o3) /\
  owf o3 /\ ob_nb o3 < 8 /\ ob_n o3 < OUT_LIMIT - 1 /\ ob_n o1 <= ob_n o3 /\ exists bits, obits o3 = obits o1 ++ bits /\
  7560 * len bits <= 69268 * d_total d + 7560 * 9 /\
  forall pos, block_bits pos out bits r.
Proof.
  pose proof OUT_LIMIT_eq as OL. pose proof (ci_ok _ _ CI) as OK.
  destruct (start_static_ok o1 W1 H81) as (t & o2 & ES & E2 & T & TL & TD).
  assert (Forall (tok_in (t_sizes0 t) (t_sizes1 t)) (concat gs')) as TI.
  { rewrite EC, TL, TD. eapply Forall_impl; [|exact OK]. apply fixed_in. }
  assert (in_code fixed_lengths 256) as I256 by (vm_compute; split; [split; congruence|reflexivity]).
  unfold LZ_CODE_BUF_SIZE in HP.
  destruct (compress_lz_ok t buf gs' o2 T) as (b & o3 & E3 & M3 & RES); try assumption.
  { now rewrite EC. } { now rewrite TL. } { unfold LZ_CODE_BUF_SIZE. lia. } { apply E2. } { apply E2. }
  rewrite EC, TL, TD in RES.
  destruct E2 as [W2 H82 M2 L2 B2]. rewrite lsb_len in L2, B2.
  assert (len (toksb fixed_lengths fixed_distances ts ++ codeword fixed_lengths 256) <= 677210) as SB.
  { rewrite len_app. pose proof (fixed_size ts OK) as FS.
    assert (len (codeword fixed_lengths 256) = 7) by (vm_compute; reflexivity). lia. }
  destruct b; [|lia].
  destruct RES as (W3 & H83 & B3 & N3). exists t, o2, o3.
  assert (ob_n o3 < OUT_LIMIT - 1) as N3'.
  { pose proof (obits_size o3 W3) as Z3. pose proof (obits_size o2 W2) as Z2. rewrite B3, len_app in Z3. pose proof (ow_nb _ W3). pose proof (ow_nb _ W1). lia. }
  split; [exact ES|]. split; [exact E3|]. split; [assumption|]. split; [assumption|]. split; [assumption|]. split; [lia|].
  exists (lsb_bits 2 1 ++ toksb fixed_lengths fixed_distances ts ++ codeword fixed_lengths 256). split.
  - rewrite B3, B2 by lia. symmetry. apply app_assoc.
  - split.
    { rewrite !len_app, lsb_len. pose proof (fixed_cost ts OK) as FS. rewrite (ci_total _ _ CI).
      assert (len (codeword fixed_lengths 256) = 7) by (vm_compute; reflexivity). lia. }
    intros pos. apply Fixed_block with (ts := ts); [|exact EX]. apply toksb_ok; [exact I256|assumption|].
    rewrite TL, TD, EC in TI. exact TI.
Qed.

(** 1271-1282 *)
Definition raw_output (n : Z) : obuf :=
  let a := pad_byte (put_bits 0 2 o1) in
  let b := put_bits (Z.land (Z.lxor n 65535) 65535) 16 (put_bits (Z.land n 65535) 16 a) in
  put_raw (Z.to_nat n) (d_dict d) (d_start d) b.
Lemma raw_fits data : r = out ++ data -> len data = d_total d -> len data <= 32768 -> bytes_ok data ->
  (forall j, 0 <= j < len data -> arr_get 0 (d_dict d) (Z.land (d_start d + j) DICT_MASK) = nth (Z.to_nat j) data 0) ->
  8 * ob_n o1 + ob_nb o1 = d_nb d + 1 ->
  owf (raw_output (d_total d)) /\ ob_nb (raw_output (d_total d)) < 8 /\ ob_n (raw_output (d_total d)) < OUT_LIMIT - 1 /\
  (8 * ob_n (raw_output (d_total d)) + ob_nb (raw_output (d_total d)) <= 8 * d_total d + d_nb d + 42 /\
   (d_nb d = 0 -> 8 * ob_n (raw_output (d_total d)) + ob_nb (raw_output (d_total d)) = 8 * d_total d + 40)) /\
  exists bits, obits (raw_output (d_total d)) = obits o1 ++ bits /\
    forall pos, pos mod 8 = d_nb d -> block_bits (pos + 1) out bits r.
Proof.
  intros ER EL LM BO HD P1. pose proof OUT_LIMIT_eq as OL. unfold raw_output. cbv zeta.
  pose proof (len_nonneg _ data) as LN.
  assert (Z.to_nat (d_total d) = length data) as -> by (unfold len in EL; lia).
  rewrite <- EL. rewrite lxor_16 by lia.
  assert (Z.land (len data) 65535 = len data) as ->.
  { change 65535 with (Z.ones 16). rewrite Z.land_ones by lia. apply Z.mod_small. change (2 ^ 16) with 65536. lia. }
  pose proof (put_bits_ok 0 2 o1 W1 H81 ltac:(lia) ltac:(cbn; lia)) as E2. change (Z.to_nat 2) with 2%nat in E2.
  set (o2 := put_bits 0 2 o1) in *. destruct E2 as [W2 H82 M2 L2 B2]. rewrite lsb_len in L2, B2. specialize (B2 ltac:(lia)).
  assert (8 * ob_n o2 + ob_nb o2 = d_nb d + 3) as P2.
  { apply (f_equal (@len bool)) in B2. unfold obits in B2.
    rewrite !len_app, !bits_of_len, !lsb_len, !len_rev in B2. destruct W1 as [V1 V2 V3 V4]. destruct W2 as [U1 U2 U3 U4]. lia. }
  assert (ob_n o2 <= 2) as N2 by (pose proof (ow_nb _ W2); lia).
  destruct (pad_byte_ok o2 W2 H82) as (pad & E3 & PL & PM & PX). destruct (PX ltac:(lia)) as [B3 Z3]. clear PX.
  set (a := pad_byte o2) in *. destruct E3 as [W3 H83 M3 L3 _].
  pose proof (len_nonneg _ pad) as PN.
  pose proof (put_bits_ok (len data) 16 a W3 H83 ltac:(lia) ltac:(change (2 ^ 16) with 65536; lia)) as E4.
  change (Z.to_nat 16) with 16%nat in E4. set (o4 := put_bits (len data) 16 a) in *.
  pose proof (put_bits_ok (65535 - len data) 16 o4 (em_wf _ _ _ E4) (em_nb _ _ _ E4) ltac:(lia) ltac:(change (2 ^ 16) with 65536; lia)) as E5.
  change (Z.to_nat 16) with 16%nat in E5. set (o5 := put_bits (65535 - len data) 16 o4) in *.
  pose proof (put_raw_ok data (d_dict d) BO (d_start d) o5 HD (em_wf _ _ _ E5) (em_nb _ _ _ E5)) as E6.
  pose proof (emits_trans _ _ _ _ _ (emits_trans _ _ _ _ _ E4 E5) E6) as E7.
  set (o6 := put_raw _ _ _ _) in *. clearbody o6 o5 o4. destruct E7 as [W7 H87 M7 L7 B7]. rewrite !len_app, !lsb_len, bits_of_len in L7, B7.
  pose proof (ow_nb _ W7).
  split; [assumption|]. split; [assumption|]. split; [lia|].
  split.
  { specialize (B7 ltac:(lia)). apply (f_equal (@len bool)) in B7. rewrite obits_size in B7 by assumption.
    rewrite B3, !len_app, !lsb_len, bits_of_len, (obits_size o2 W2) in B7.
    assert (forall q, ob_nb o2 + len pad = 8 * q -> 8 * q <= ob_nb o2 + 7 -> d_nb d = 0 -> 8 * ob_n o2 + 8 * q = 8) as AUX by (intros; lia).
    split; [lia|]. intros Z0. rewrite B7. pose proof (Z.div_mod (ob_nb o2 + len pad) 8 ltac:(lia)) as DM. rewrite PM in DM.
    specialize (AUX ((ob_nb o2 + len pad) / 8)). lia. }
  exists (lsb_bits 2 0 ++ pad ++ lsb_bits 16 (len data) ++ lsb_bits 16 (65535 - len data) ++ bits_of data). split.
  - rewrite B7 by lia. rewrite B3, B2. rewrite <- !app_assoc. reflexivity.
  - intros pos Hpos. rewrite ER. apply Stored_block; try assumption; [|lia].
    rewrite <- Z.add_assoc, <- Z.add_assoc. rewrite Z.add_mod, Hpos by lia.
    rewrite Z.add_mod_idemp_r by lia. replace (d_nb d + (1 + (2 + len pad))) with (ob_nb o2 + len pad + ob_n o2 * 8) by lia.
    rewrite Z.mod_add by lia. exact PM.
Qed.
Lemma coded_block : exists x y,
  (if d_total d <? 48 then start_static_block o1 else start_dynamic_block (d_count0 d) (d_count1 d) o1) = Ok x /\
  compress_lz_codes (fst x) buf (len (layout gs')) (snd x) = Ok y /\
  fst y = true /\ owf (snd y) /\ ob_nb (snd y) < 8 /\ ob_n (snd y) < OUT_LIMIT - 1 /\
     exists bits, obits (snd y) = obits o1 ++ bits /\
       7560 * len bits <= 69268 * d_total d + 7560 * (if d_total d <? 48 then 9 else 4610) /\
       forall pos, block_bits pos out bits r.
Proof.
  destruct static_fits as (t & o2 & o3 & ES & EC3 & W3 & H83 & N3 & M3 & bits & B3 & CC & BB).
  destruct (d_total d <? 48).
  - exists (t, o2), (true, o3). split; [exact ES|]. split; [exact EC3|]. split; [reflexivity|]. cbn [snd].
    split; [exact W3|]. split; [exact H83|]. split; [exact N3|]. exists bits. split; [exact B3|]. split; [exact CC|exact BB].
  - unfold LZ_CODE_BUF_SIZE in HP. destruct CI as [(gs & cur & LI)]. pose proof (lz_inv_len _ _ _ _ _ _ _ LI) as LL.
    destruct (start_dynamic_ok (d_count0 d) (d_count1 d) o1) as (td & hdr & od & ED & EM & DH); try assumption; [lia|lia|].
    destruct DH as [T U0 U1 HL K0 K1 BLK].
    assert (Forall (tok_in (t_sizes0 td) (t_sizes1 td)) (concat gs')) as TI.
    { rewrite EC. eapply counted_in; eassumption. }
    destruct (compress_lz_ok td buf gs' od T) as (b & oe & E3 & M4 & RES); try assumption.
    { now rewrite EC. } { apply U0; [lia|now right]. } { unfold LZ_CODE_BUF_SIZE. lia. } { apply EM. } { apply EM. }
    rewrite EC in RES. exists (td, od), (b, oe). split; [exact ED|]. split; [exact E3|]. cbn [fst snd].
    assert (len hdr + len (toksb (t_sizes0 td) (t_sizes1 td) ts ++ codeword (t_sizes0 td) 256) <= 681300 /\
       7560 * (len hdr + len (toksb (t_sizes0 td) (t_sizes1 td) ts ++ codeword (t_sizes0 td) 256)) <= 69268 * d_total d + 7560 * 4610) as [BITS COST].
    { rewrite len_app. pose proof (toksb_size (t_sizes0 td) (t_sizes1 td) ts ci_ok (to_max0 _ T) (to_max1 _ T)) as TS.
      pose proof (toksb_cost (t_sizes0 td) (t_sizes1 td) ts ci_ok (to_max0 _ T) (to_max1 _ T)) as TC.
      rewrite <- ci_hist0, <- ci_hist1 in TS, TC.
      pose proof (code_len_max _ 256 (to_max0 _ T)) as CM. rewrite codeword_len by lia.
      pose proof (layout_groups gs' G) as LG. rewrite EC in LG.
      assert (nth 256 (d_count0 d) 0 = 0) as Z256.
      { rewrite <- dotl_unit, ci_hist0. clear - ci_ok. induction ci_ok as [|t ts O _ IH]; [reflexivity|]. cbn [map zsum]. rewrite IH.
        assert (at_index (repeat 0 256 ++ [1]) (tok_sym t) = 0) as ->; [|reflexivity].
        assert (tok_sym t <> 256 /\ 0 <= tok_sym t) as [N0 N1].
        { destruct t as [c|n e]; cbn [tok_ok tok_sym] in *; [lia|]. destruct (len_facts (n - 3)) as (? & ? & ? & ? & ? & ? & ?); lia. }
        unfold at_index. destruct (Z_lt_le_dec (tok_sym t) 256).
        - rewrite app_nth1 by (rewrite repeat_length; lia). apply nth_repeat.
        - apply nth_overflow. rewrite app_length, repeat_length. cbn [length]. lia. }
      assert (zsum (d_count1 d) = copies ts) as ZC.
      { rewrite <- dotl_ones, ci_hist1. unfold copies. unfold len in ci_len1. replace (length (d_count1 d)) with 32%nat by lia.
        clear - ci_ok. induction ci_ok as [|t ts O _ IH]; [reflexivity|]. cbn [filter]. destruct t as [c|n e]; cbn [is_copy]; [exact IH|].
        cbn [map zsum far_sym tok_ok] in *. rewrite IH, len_cons. destruct (dist_facts (e - 1)) as (db & dx & D1 & D2 & D3 & D4 & D5 & D6); [lia|].
        assert (at_index (repeat 1 32) (dist_sym (e - 1)) = 1) as ->; [|lia].
        unfold at_index. rewrite nth_indep with (d' := 1) by (rewrite repeat_length; lia). apply nth_repeat. }
      assert (256 < length (d_count0 d))%nat as B256 by (unfold len in ci_len0; lia).
      rewrite dotl_change, zsum_update, Z256 in K0 by assumption.
      change (nth 256 (t_sizes0 td) 0) with (code_len (t_sizes0 td) 256) in K0.
      unfold copies in *. pose proof (len_nonneg _ (filter is_copy ts)). split; [lia|]. rewrite ci_total. lia. }
    destruct EM as [Wd H8d Md Ld Bd]. pose proof OUT_LIMIT_eq as OL. pose proof (ow_nb _ W1).
    destruct b; [|exfalso; lia]. split; [reflexivity|].
    destruct RES as (We & H8e & Be & Ne). split; [assumption|]. split; [assumption|].
    split.
    { pose proof (obits_size oe We) as Z3. pose proof (obits_size od Wd) as Z2. rewrite Be, len_app in Z3.
      pose proof (ow_nb _ We). lia. }
    exists (hdr ++ toksb (t_sizes0 td) (t_sizes1 td) ts ++ codeword (t_sizes0 td) 256).
    split; [rewrite Be, Bd by lia; symmetry; apply app_assoc|].
    split; [rewrite len_app; exact COST|]. intros pos. now apply BLK.
Qed.
End Block.

Theorem block_output_ok d ts out r finish : block_ready d ts out r ->
  exists o bits pad, block_output d finish = Ok o /\ block_done d finish out r o bits pad.
Proof.
  intros [CI HP EX HN HB RAW]. pose proof CI as CI'. destruct CI as [(gs & cur & LI)].
  unfold block_output, close_flags. pose proof (final_buffer _ _ _ _ _ _ _ LI) as FB. cbv zeta in FB.
  set (buf := arr_set _ _ _) in *. set (end_ := d_p d - _) in *. set (gs' := final_groups gs cur) in *.
  destruct FB as (G & EC & HO & EE & EP). clearbody buf end_ gs'. subst end_.
  pose proof (lz_inv_size _ _ _ _ _ _ _ LI) as SZ.
  set (o0 := mk_obuf [] 0 (d_bb d) (d_nb d)).
  assert (owf o0) as W0 by (constructor; cbn [o0 ob_nb ob_bb ob_n ob_rev]; [lia|lia|reflexivity|constructor]).
  assert (emits o0 (put_bits (if finish then 1 else 0) 1 o0) [finish]) as E1.
  { pose proof (put_bits_ok (if finish then 1 else 0) 1 o0 W0 ltac:(cbn [o0 ob_nb]; lia) ltac:(lia) ltac:(destruct finish; cbn; lia)) as E.
    destruct finish; exact E. }
  set (o1 := put_bits (if finish then 1 else 0) 1 o0) in *.
  destruct E1 as [W1 H81 M1 L1 B1]. cbn [o0 ob_n ob_nb] in M1, L1. rewrite len_cons, len_nil in L1, B1.
  pose proof OUT_LIMIT_eq as OL.
  assert (ob_n o1 <= 1) as N1 by (pose proof (ow_nb _ W1); lia).
  specialize (B1 ltac:(cbn [o0 ob_n ob_nb]; lia)).
  assert (obits o0 = lsb_bits (Z.to_nat (d_nb d)) (d_bb d)) as OB0 by reflexivity.
  assert (8 * ob_n o1 + ob_nb o1 = d_nb d + 1) as P1.
  { pose proof (f_equal (@len bool) B1) as B. rewrite OB0 in B. unfold obits in B.
    rewrite !len_app, !bits_of_len, !lsb_len, !len_rev, len_cons, len_nil in B. destruct W1 as [V1 V2 V3 V4]. lia. }
  clearbody o1.
  destruct (coded_block d ts out r buf gs' o1 CI' HP SZ EX G EC HO EP W1 H81 N1) as (x & y & EX1 & EY & FY & GOOD).
  rewrite EX1. cbn [obind]. rewrite EY. cbn [obind]. cbv zeta.
  fold (raw_output d o1 (d_total d)).
  match goal with |- context [obind ?X _] => set (CH := X) end.
  assert (exists o2 bits, obits o2 = obits o1 ++ bits /\ owf o2 /\ ob_nb o2 < 8 /\ ob_n o2 < OUT_LIMIT - 1 /\
     (forall pos, pos mod 8 = d_nb d -> block_bits (pos + 1) out bits r) /\
     7560 * (8 * ob_n o2 + ob_nb o2) <= 69268 * d_total d + 7560 * (d_nb d + 4611) /\
     (u32 (d_lpos d - d_start d) <= d_dsize d -> d_nb d = 0 -> 8 * ob_n o2 + ob_nb o2 <= 8 * d_total d + 40) /\
     CH = Ok o2) as (o4 & bits4 & B4 & W4 & H84 & N4 & BB4 & CO4 & SH4 & ->).
  { unfold CH. clear CH. pose proof (toks_len_bounds ts ci_ok) as TB. rewrite <- ci_total in TB. pose proof (len_nonneg _ ts).
    destruct (negb (d_total d =? 0) && (ob_n (snd y) - ob_n o1 + 1 >=? d_total d) && (u32 (d_lpos d - d_start d) <=? d_dsize d))%bool eqn:CR.
    - apply andb_prop in CR. destruct CR as [CR C3]. apply Z.leb_le in C3.
      destruct (RAW C3) as (data & ER & EL & LM & BO & HD).
      destruct (raw_fits d out r o1 W1 H81 N1 data ER EL LM BO HD P1) as (A1 & A2 & A3 & (A6 & A7) & bits2 & A4 & A5).
      exists (raw_output d o1 (d_total d)), bits2. 
      split; [exact A4|]. split; [exact A1|]. split; [exact A2|]. split; [exact A3|]. split; [exact A5|].
      split; [lia|]. split; [intros _ Z0; rewrite (A7 Z0); lia|reflexivity].
    - rewrite FY. cbn [negb]. destruct GOOD as (A1 & A2 & A3 & bits2 & A4 & A6 & A5).
      pose proof (obits_size _ A1) as Z1. rewrite A4, len_app, (obits_size o1 W1) in Z1.
      pose proof (ow_nb _ A1) as NB1. pose proof (ow_nb _ W1) as NB2.
      exists (snd y), bits2. split; [exact A4|]. split; [exact A1|]. split; [exact A2|]. split; [exact A3|].
      split; [intros; apply A5|]. split; [destruct (d_total d <? 48); lia|]. split; [|reflexivity].
      intros C3 Z0. apply Z.leb_le in C3. rewrite C3, andb_true_r in CR. apply andb_false_iff in CR. destruct CR as [CR|CR].
      + apply negb_false_iff, Z.eqb_eq in CR. rewrite CR in A6 |- *. cbn [Z.ltb Z.compare] in A6. lia.
      + rewrite Z.geb_leb in CR. apply Z.leb_gt in CR. lia. }
  cbn [obind]. destruct finish.
  - destruct (pad_byte_ok o4 W4 H84) as (pad & E & PL & PM & PX). destruct (PX ltac:(lia)) as [B5 Z5].
    exists (pad_byte o4), bits4, pad. split; [reflexivity|]. destruct E as [W5 H85 M5 L5 _].
    pose proof (len_nonneg _ pad). pose proof (ow_nb _ W4).
    pose proof (obits_size _ W5) as Z6. rewrite B5, len_app, (obits_size o4 W4), Z5 in Z6.
    constructor; try assumption; [|rewrite B5, B4, B1, OB0; rewrite <- !app_assoc; reflexivity|split; assumption|rewrite Z5; lia|intros ID Z0 _; specialize (SH4 ID Z0); lia].
    assert (ob_nb o4 + len pad < 16) by lia; pose proof (Z.div_mod (ob_nb o4 + len pad) 8); lia.
  - exists o4, bits4, []. split; [reflexivity|].
    constructor; try assumption; [lia|rewrite B4, B1, OB0, app_nil_r; rewrite <- !app_assoc; reflexivity|reflexivity|lia|discriminate].
Qed.
