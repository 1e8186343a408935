(** The compressor as a whole (src/miniz/miniz.cpp 138-185, 1245-1778, src/zip.cpp
    28-89): npy_deflate always succeeds and its output is a DEFLATE stream for its input. *)
From Coq Require Import ZArith List Bool Lia.
From Verif Require Import Base Arr Tinfl Tdefl BaseFacts DeflateSpec BitFacts HuffFacts HuffCost HuffBuild InflCopy MinRed DeflHuff DeflBits DeflLz DeflLz2 DeflLz3 DeflBlock DeflWindow.
Import ListNotations.
Open Scope Z_scope.

(** ** Streams, block by block *)
Definition pre_stream (bits : list bool) (out : bytes) : Prop :=
  forall tail r, stream_bits (len bits) out tail r -> stream_bits 0 [] (bits ++ tail) r.
Lemma pre_nil : pre_stream [] [].
Proof. intros tail r H. exact H. Qed.
Lemma pre_next bits out b r : pre_stream bits out -> block_bits (len bits + 1) out b r ->
  pre_stream (bits ++ false :: b) r.
Proof.
  intros P H tail q S. rewrite <- app_assoc. apply P. cbn [app]. eapply Next_block; [exact H|].
  rewrite len_app, len_cons in S. now rewrite Z.add_assoc in S.
Qed.
Lemma pre_last bits out b r : pre_stream bits out -> block_bits (len bits + 1) out b r ->
  stream_bits 0 [] (bits ++ true :: b) r.
Proof. intros P H. apply P. now apply Last_block. Qed.

Lemma repeat_zero_at n j : at_index (repeat 0 n) j = 0.
Proof. unfold at_index. destruct (nth_in_or_default (Z.to_nat j) (repeat 0 n) 0) as [H| ->]; [|reflexivity]. now apply repeat_spec in H. Qed.
Lemma dotl_zero n : forall G, dotl (repeat 0 n) G = 0.
Proof. induction n as [|n IH]; intros [|g G]; cbn [repeat dotl]; try reflexivity. rewrite IH. lia. Qed.
Lemma codes_inv_start d : byte_cells (d_buf d) -> d_p d = 1 -> d_flags d = 0 -> d_left d = 8 ->
  d_count0 d = repeat 0 288 -> d_count1 d = repeat 0 32 -> d_total d = 0 -> codes_inv [] d.
Proof.
  intros B E1 E2 E3 E4 E5 E6. constructor; rewrite ?E1, ?E2, ?E3, ?E4, ?E5, ?E6.
  - exists [], []. now apply lz_inv_start.
  - constructor.
  - reflexivity.
  - reflexivity.
  - apply Forall_forall. intros x H. apply repeat_spec in H. lia.
  - apply Forall_forall. intros x H. apply repeat_spec in H. lia.
  - reflexivity.
  - vm_compute. congruence.
  - constructor.
  - intros. apply repeat_zero_at.
  - intros. apply repeat_zero_at.
  - reflexivity.
  - intros G. apply dotl_zero.
  - intros G. apply dotl_zero.
Qed.

(** ** The state between two tokens.  [inp]: the input taken so far; [em]: all bytes of
    the blocks so far; [pos]: input positions coded; [st]: where the current block
    starts; [ts]: its tokens *)
Record cinv (inp em : bytes) (pos st : Z) (ts : list token) (d : tdefl) : Prop := {
  cv_bytes : bytes_ok inp;
  cv_len : len inp = pos + d_lsize d;
  cv_st : 0 <= st <= pos;
  cv_lpos : d_lpos d = u32 pos;
  cv_start : d_start d = u32 st;
  cv_lsize : 0 <= d_lsize d <= 258;
  cv_dsize : 0 <= d_dsize d <= pos;
  cv_window : d_dsize d + d_lsize d <= 32768;
  cv_ring : ring (d_dict d) inp;
  cv_codes : codes_inv ts d;
  cv_exp : expands (ztake st inp) ts (ztake pos inp);
  cv_total : toks_len ts = pos - st;
  cv_nb : 0 <= d_nb d < 8;
  cv_bb : 0 <= d_bb d < 2 ^ d_nb d;
  cv_em : bytes_ok em;
  cv_size : 100 * (8 * len em + d_nb d) <= 931 * st;
  cv_dict : Z.min pos 32510 <= d_dsize d;
  cv_first : st = 0 \/ 31744 < st;
  cv_pre : pre_stream (bits_of em ++ lsb_bits (Z.to_nat (d_nb d)) (d_bb d)) (ztake st inp)
}.
(** the size of what [n] bytes are compressed to *)
Definition fair_size (n m : Z) : Prop := 6 * m <= 7 * n + 3480 /\ (n <= 31744 -> m <= n + 5).
Definition same_status (d d' : tdefl) : Prop :=
  d_finished d' = d_finished d /\ d_wants d' = d_wants d /\ d_prev d' = d_prev d.

Lemma at_zdrop l i j : 0 <= i -> 0 <= j -> at_index (zdrop i l) j = at_index l (i + j).
Proof.
  intros Hi Hj. unfold at_index. rewrite zdrop_skipn. replace (Z.to_nat (i + j)) with (Z.to_nat i + Z.to_nat j)%nat by lia.
  generalize (Z.to_nat i) (Z.to_nat j). intros n m. revert l. induction n as [|n IH]; intros l; [reflexivity|].
  destruct l; cbn [skipn nth Nat.add]; [now destruct m|]. apply IH.
Qed.
Lemma at_ztake l i j : 0 <= j < i -> at_index (ztake i l) j = at_index l j.
Proof.
  intros H. rewrite <- (ztake_zdrop _ i l) at 2. destruct (Z_lt_le_dec j (len (ztake i l))) as [L|L].
  - rewrite at_app1 by lia. reflexivity.
  - rewrite len_ztake in L. pose proof (len_nonneg _ l). rewrite ztake_zdrop. unfold at_index.
    rewrite !nth_overflow; [reflexivity| |]; [unfold len in *; lia|].
    rewrite ztake_firstn. rewrite firstn_length. unfold len in *. lia.
Qed.
Lemma ztake_split (l : bytes) i j : 0 <= i <= j -> ztake j l = ztake i l ++ ztake (j - i) (zdrop i l).
Proof.
  intros H. destruct (Z_lt_le_dec (len l) i) as [L|L].
  - rewrite (ztake_all _ i), (ztake_all _ j), (zdrop_all _ i) by lia. cbn [ztake]. now rewrite app_nil_r.
  - rewrite <- (ztake_zdrop _ i l) at 1. rewrite ztake_app_ge by (rewrite len_ztake; lia).
    do 2 f_equal. rewrite len_ztake. lia.
Qed.
Lemma bytes_ok_ztake n l : bytes_ok l -> bytes_ok (ztake n l).
Proof. intros H. rewrite <- (ztake_zdrop _ n l) in H. now apply bytes_ok_app in H. Qed.
Lemma bytes_ok_zdrop n l : bytes_ok l -> bytes_ok (zdrop n l).
Proof. intros H. rewrite <- (ztake_zdrop _ n l) in H. now apply bytes_ok_app in H. Qed.
Lemma codes_len ts d : codes_inv ts d -> len ts + 1 <= d_p d.
Proof. intros [(gs & cur & LI)]. eapply lz_inv_len. exact LI. Qed.

Lemma cinv_ready inp em pos st ts d : cinv inp em pos st ts d -> d_p d <= LZ_CODE_BUF_SIZE - 2 ->
  block_ready d ts (ztake st inp) (ztake pos inp).
Proof.
  intros [] HP. constructor; try assumption. intros RAW.
  pose proof (codes_len _ _ cv_codes0) as CL. pose proof (toks_len_bounds ts (ci_ok _ _ cv_codes0)) as TB.
  unfold LZ_CODE_BUF_SIZE in HP.
  assert (u32 (d_lpos d - d_start d) = pos - st) as E.
  { rewrite cv_lpos0, cv_start0. unfold u32. rewrite <- Zminus_mod. apply Z.mod_small. lia. }
  rewrite E in RAW. exists (ztake (pos - st) (zdrop st inp)).
  assert (len (ztake (pos - st) (zdrop st inp)) = pos - st) as EL by (rewrite len_ztake, len_zdrop; lia).
  split; [apply ztake_split; lia|]. split; [rewrite EL, (ci_total _ _ cv_codes0); lia|]. split; [lia|].
  split; [now apply bytes_ok_ztake, bytes_ok_zdrop|]. rewrite EL. intros j Hj.
  change (nth (Z.to_nat j) (ztake (pos - st) (zdrop st inp)) 0) with (at_index (ztake (pos - st) (zdrop st inp)) j).
  rewrite at_ztake, at_zdrop by lia. rewrite land_dict, cv_start0, Z.add_mod, u32_mod_dict, <- Z.add_mod by lia.
  destruct (cv_ring0 (st + j)) as [R _]; [lia|lia|exact R].
Qed.

(** ** Flushing a block *)
Lemma obits_len o : owf o -> len (obits o) = 8 * ob_n o + ob_nb o.
Proof. intros []. unfold obits. rewrite len_app, bits_of_len, lsb_len, len_rev. lia. Qed.
Lemma byte_cells_close d : byte_cells (d_buf d) -> 0 <= d_flags d -> byte_cells (close_flags d).
Proof. intros. unfold close_flags. apply byte_cells_set; [assumption|assumption|apply u8_range]. Qed.
(** a block is closed early only when it stands for more than 31744 bytes *)
Lemma group_toks g : Forall tok_ok g -> len (flat_map tok_bytes g) <= toks_len g.
Proof.
  induction 1 as [|t g H _ IH]; [cbn; lia|]. cbn [flat_map]. rewrite len_app, len_tok_bytes. unfold toks_len in *. cbn [map zsum].
  destruct t; cbn [tok_len is_copy tok_ok] in *; lia.
Qed.
Lemma toks_len_app a b : toks_len (a ++ b) = toks_len a + toks_len b.
Proof. unfold toks_len. now rewrite map_app, zsum_app. Qed.
Lemma layout_toks gs : full gs -> Forall tok_ok (concat gs) -> 8 * len (layout gs) <= 9 * toks_len (concat gs).
Proof.
  induction 1 as [|g gs H _ IH]; intros F; [cbn; lia|]. cbn [concat layout flat_map] in *. apply Forall_app in F. destruct F as [F1 F2].
  specialize (IH F2). unfold layout in IH. rewrite len_app, toks_len_app. unfold group_bytes at 1. rewrite len_cons.
  pose proof (group_toks g F1). pose proof (toks_len_bounds g F1). unfold len in *. lia.
Qed.
Lemma codes_full ts d : codes_inv ts d -> block_full d = true -> 31744 < toks_len ts.
Proof.
  intros C BF. pose proof (ci_total _ _ C) as ET. unfold block_full, LZ_CODE_BUF_SIZE in BF.
  apply orb_true_iff in BF. destruct BF as [BF|BF]; [|apply andb_true_iff in BF; lia].
  destruct (ci_lz _ _ C) as (gs & cur & []). pose proof (ci_ok _ _ C) as OK. rewrite li_ts in OK |- *. apply Forall_app in OK. destruct OK as [O1 O2].
  rewrite toks_len_app. pose proof (layout_toks gs li_gs O1). pose proof (group_toks cur O2). pose proof (len_nonneg _ (flat_map tok_bytes cur)). unfold cur_bytes in li_p. lia.
Qed.
Lemma flush_ok inp em pos st ts d finish room : cinv inp em pos st ts d -> d_p d <= LZ_CODE_BUF_SIZE - 2 -> 0 <= room ->
  (finish = false -> 31744 < pos - st) ->
  exists sent d', flush_block d finish room = Ok (sent, d') /\ same_status d d' /\ d_lsize d' = d_lsize d /\ d_p d' = 1 /\
    len (sent ++ d_pend d') <= OUT_LIMIT /\ len sent <= room /\ (d_pend d' = [] \/ len sent = room) /\ bytes_ok (sent ++ d_pend d') /\
    if finish then deflates_to (em ++ sent ++ d_pend d') (ztake pos inp) /\
                   fair_size pos (len (em ++ sent ++ d_pend d'))
    else cinv inp (em ++ sent ++ d_pend d') pos pos [] d'.
Proof.
  intros C HP HR HF. destruct (block_output_ok _ _ _ _ finish (cinv_ready _ _ _ _ _ _ C HP)) as (o & bits & pad & E & D).
  unfold flush_block. rewrite E. cbn [obind]. unfold rev'. rewrite <- rev_alt. set (blk := rev (ob_rev o)).
  destruct D as [W N8 NL BI PA BL CO SH]. pose proof W as [W1 W2 W3 W4]. rewrite OUT_LIMIT_eq in NL.
  assert (len blk = ob_n o) as EB by (unfold blk; now rewrite len_rev).
  assert (exists sent pend, (if room >=? OUT_BUF_SIZE then blk else ztake room blk) = sent /\
     (if room >=? OUT_BUF_SIZE then [] else zdrop room blk) = pend /\ blk = sent ++ pend /\ len sent <= room /\ (pend = [] \/ len sent = room)) as (sent & pend & E1 & E2 & E3 & E4 & E5).
  { unfold OUT_BUF_SIZE. destruct (Z.geb_spec room 85196).
    - exists blk, []. rewrite app_nil_r. repeat split; auto. lia.
    - exists (ztake room blk), (zdrop room blk). split; [reflexivity|]. split; [reflexivity|]. rewrite ztake_zdrop.
      split; [reflexivity|]. rewrite len_ztake. split; [pose proof (len_nonneg _ blk); lia|].
      destruct (Z_le_gt_dec (len blk) room); [left; now apply zdrop_all|right; lia]. }
  change bytes with (list Z). rewrite E1, E2. eexists _, _. split; [reflexivity|]. cbn [d_pend d_lsize d_p]. rewrite <- E3.
  split; [repeat split|]. split; [reflexivity|]. split; [reflexivity|]. rewrite OUT_LIMIT_eq. split; [lia|]. split; [assumption|]. split; [assumption|].
  assert (bytes_ok blk) as BB by (apply Forall_rev; exact W4).
  split; [exact BB|]. destruct C. set (pre := bits_of em ++ lsb_bits (Z.to_nat (d_nb d)) (d_bb d)) in *.
  assert (block_bits (len pre + 1) (ztake st inp) bits (ztake pos inp)) as BLK.
  { apply BL. unfold pre. rewrite len_app, bits_of_len, lsb_len. rewrite Z2Nat.id by lia.
    rewrite Z.mul_comm, Z.add_comm, Z_mod_plus_full. apply Z.mod_small. lia. }
  assert (bits_of (em ++ blk) ++ lsb_bits (Z.to_nat (ob_nb o)) (ob_bb o) = pre ++ (finish :: bits) ++ pad) as EQ.
  { unfold obits in BI. fold blk in BI. rewrite bits_of_app, <- app_assoc, BI. unfold pre. apply app_assoc. }
  destruct finish.
  - destruct PA as [P1 P2]. rewrite P1 in EQ. cbn [Z.to_nat lsb_bits] in EQ. rewrite app_nil_r in EQ.
    split.
    2:{ assert (u32 (d_lpos d - d_start d) = pos - st) as EU by (rewrite cv_lpos0, cv_start0; unfold u32; rewrite <- Zminus_mod; apply Z.mod_small; split; [lia|]; pose proof (codes_len _ _ cv_codes0); pose proof (toks_len_bounds ts (ci_ok _ _ cv_codes0)); unfold LZ_CODE_BUF_SIZE in HP; lia).
        rewrite (ci_total _ _ cv_codes0), cv_total0 in CO, SH. rewrite EU in SH. rewrite len_app, EB. pose proof (len_nonneg _ em). split; [lia|].
        intros HS. assert (st = 0) as -> by lia. assert (len em = 0) as -> by lia. assert (d_nb d = 0) as N0 by lia.
        specialize (SH ltac:(lia) N0 eq_refl). lia. }
    split; [apply bytes_ok_app; auto|]. exists (pre ++ true :: bits), pad. split; [rewrite EQ; apply app_assoc|].
    split; [exact P2|]. now apply pre_last with (out := ztake st inp).
  - subst pad. rewrite app_nil_r in EQ.
    constructor; cbn [d_lsize d_lpos d_start d_dsize d_dict d_nb d_bb]; try assumption.
    + lia.
    + rewrite cv_start0, (ci_total _ _ cv_codes0), cv_total0. unfold u32. rewrite Z.add_mod_idemp_l by lia. f_equal. lia.
    + apply codes_inv_start; cbn [d_buf d_p d_flags d_left d_count0 d_count1 d_total]; try reflexivity.
      destruct (ci_lz _ _ cv_codes0) as (gs & cur & LI). apply byte_cells_close; [eapply li_cells; exact LI|].
      rewrite (li_flags _ _ _ _ _ _ _ LI). apply len_nonneg.
    + constructor.
    + rewrite Z.sub_diag. reflexivity.
    + lia.
    + apply bytes_ok_app. auto.
    + specialize (HF eq_refl). rewrite len_app, EB. rewrite (ci_total _ _ cv_codes0), cv_total0 in CO. lia.
    + specialize (HF eq_refl). lia.
    + rewrite EQ. now apply pre_next with (out := ztake st inp).
Qed.

(** ** One turn of the loop *)
Lemma cinv_fill inp em pos st ts d src : cinv inp em pos st ts d -> bytes_ok src ->
  exists d2, let taken := ztake (258 - d_lsize d) src in
    (let (d1, src1) := fill d src in
     (set_position d1 (d_lpos d1) (d_lsize d1) (Z.min (TDEFL_LZ_DICT_SIZE - d_lsize d1) (d_dsize d1)), src1))
    = (d2, zdrop (258 - d_lsize d) src) /\
    cinv (inp ++ taken) em pos st ts d2 /\ d_lsize d2 = d_lsize d + len taken /\ d_p d2 = d_p d /\
    d_pend d2 = d_pend d /\ same_status d d2.
Proof.
  intros [] BS. destruct (fill_ok d src inp pos cv_ring0 cv_lpos0 cv_len0) as (dict & next & hash & E & R).
  cbv zeta in *. set (taken := ztake (258 - d_lsize d) src) in *. rewrite E. eexists. split; [reflexivity|].
  assert (0 <= len taken <= 258 - d_lsize d) as LT by (unfold taken; rewrite len_ztake; pose proof (len_nonneg _ src); lia).
  cbn [set_position set_window d_lsize d_p d_pend d_dsize d_lpos]. unfold TDEFL_LZ_DICT_SIZE.
  split; [|repeat split; reflexivity].
  constructor; cbn [set_position set_window d_lsize d_lpos d_dsize d_start d_dict d_nb d_bb]; try assumption.
  - apply bytes_ok_app. split; [assumption|now apply bytes_ok_ztake].
  - rewrite len_app. lia.
  - lia.
  - lia.
  - lia.
  - destruct cv_codes0. constructor; assumption.
  - rewrite !ztake_app_le by lia. assumption.
  - lia.
  - rewrite !ztake_app_le by lia. assumption.
Qed.

Definition step_token (d2 : tdefl) : outcome (tdefl * Z) :=
  let cur_pos := Z.land (d_lpos d2) DICT_MASK in
  let (dist0, len0) := find_match d2 in
  let drop := ((len0 =? MIN_MATCH_LEN) && (dist0 >=? 8 * 1024)) || (cur_pos =? dist0) in
  let dist1 := if drop then 0 else dist0 in
  let len1 := if drop then 0 else len0 in
  if dist1 =? 0 then
    let* d3 := record_literal d2 (arr_get 0 (d_dict d2) cur_pos) in Ok (d3, 1)
  else let* d3 := record_match d2 len1 dist1 in Ok (d3, len1).
Definition moved (d3 : tdefl) (move : Z) : tdefl :=
  set_position d3 (u32 (d_lpos d3 + move)) (u32 (d_lsize d3 - move))
               (Z.min (d_dsize d3 + move) TDEFL_LZ_DICT_SIZE).
Lemma cinv_moved inp em pos st ts d2 d3 tok move : cinv inp em pos st ts d2 -> 1 <= move <= d_lsize d2 ->
  codes_inv (ts ++ [tok]) d3 -> same_window d2 d3 -> tok_len tok = move ->
  expands (ztake st inp) (ts ++ [tok]) (ztake (pos + move) inp) ->
  cinv inp em (pos + move) st (ts ++ [tok]) (moved d3 move) /\
  d_lsize (moved d3 move) = d_lsize d2 - move /\ d_p (moved d3 move) = d_p d3 /\
  d_pend (moved d3 move) = d_pend d2 /\ same_status d2 (moved d3 move).
Proof.
  intros [] HM CI (S1 & S2 & S3 & S4 & S5 & S6 & S7 & S8 & S9 & S10 & S11 & S12 & S13) HT EX.
  unfold moved. rewrite S4, S5, S6. rewrite (u32_small (d_lsize d2 - move)) by lia. unfold TDEFL_LZ_DICT_SIZE.
  split.
  2:{ cbn [set_position d_lsize d_p d_pend]. unfold same_status. cbn [set_position d_finished d_wants d_prev].
      rewrite S10, S11, S12, S13. repeat split. }
  constructor; cbn [set_position d_lsize d_lpos d_dsize d_start d_dict d_nb d_bb]; rewrite ?S1, ?S7, ?S8, ?S9; try assumption.
  - lia.
  - lia.
  - rewrite cv_lpos0. unfold u32. now rewrite Z.add_mod_idemp_l by lia.
  - lia.
  - lia.
  - lia.
  - destruct CI. constructor; assumption.
  - rewrite toks_len_snoc. lia.
  - lia.
Qed.
Lemma step_ok inp em pos st ts d2 : cinv inp em pos st ts d2 -> 1 <= d_lsize d2 -> d_p d2 <= LZ_CODE_BUF_SIZE - 8 ->
  exists d3 move tok, step_token d2 = Ok (d3, move) /\ 1 <= move <= d_lsize d2 /\
    cinv inp em (pos + move) st (ts ++ [tok]) (moved d3 move) /\
    d_lsize (moved d3 move) = d_lsize d2 - move /\ d_p (moved d3 move) <= d_p d2 + 4 /\
    d_pend (moved d3 move) = d_pend d2 /\ same_status d2 (moved d3 move).
Proof.
  intros C HL HP. pose proof C as C0. destruct C0.
  pose proof (find_match_ok d2 inp pos cv_bytes0 cv_ring0 cv_lpos0 cv_len0 cv_lsize0 cv_dsize0 cv_window0) as F.
  pose proof (here_ok d2 inp pos cv_ring0 cv_lpos0 cv_len0 cv_lsize0 cv_dsize0 ltac:(lia)) as HERE.
  unfold step_token. destruct (find_match d2) as [dist0 len0]. unfold found in F. cbn [fst snd] in F. cbv zeta.
  set (drop := _ || _). clearbody drop.
  assert (exists d3, (let* d3 := record_literal d2 (arr_get 0 (d_dict d2) (Z.land (d_lpos d2) DICT_MASK)) in Ok (d3, 1)) = Ok (d3, 1) /\
     cinv inp em (pos + 1) st (ts ++ [Lit (at_index inp pos)]) (moved d3 1) /\
    d_lsize (moved d3 1) = d_lsize d2 - 1 /\ d_p (moved d3 1) <= d_p d2 + 4 /\
    d_pend (moved d3 1) = d_pend d2 /\ same_status d2 (moved d3 1)) as LIT.
  { rewrite HERE. destruct (record_literal_ok ts d2 (at_index inp pos) cv_codes0 HP) as (d3 & -> & CI & SW & PB); [now apply at_byte|].
    exists d3. split; [reflexivity|].
    destruct (cinv_moved inp em pos st ts d2 d3 (Lit (at_index inp pos)) 1) as (M1 & M2 & M3 & M4 & M5); auto; [lia| |].
    { rewrite ztake_snoc by lia. now apply expands_snoc. }
    split; [assumption|]. split; [assumption|]. split; [lia|]. auto. }
  destruct LIT as (dl & EL & C1 & C2 & C3 & C4 & C5).
  destruct (Z.eqb_spec (if drop then 0 else dist0) 0) as [Z0|Z0].
  - exists dl, 1, (Lit (at_index inp pos)). split; [exact EL|]. split; [lia|]. auto.
  - destruct drop; [lia|]. destruct F as [F|(F1 & F2 & F3)]; [lia|].
    destruct (record_match_ok ts d2 len0 dist0 cv_codes0 HP ltac:(lia) ltac:(lia)) as (d3 & -> & CI & SW & PB).
    exists d3, len0, (Copy len0 dist0). split; [reflexivity|]. split; [lia|].
    destruct (cinv_moved inp em pos st ts d2 d3 (Copy len0 dist0) len0) as (M1 & M2 & M3 & M4 & M5); auto; [lia|].
    { rewrite <- (Z2Nat.id len0) at 2 by lia. rewrite <- copy_matches with (dist := dist0); try lia.
      - apply expands_snoc_copy; [assumption|]. rewrite len_ztake. lia.
      - rewrite Z2Nat.id by lia. exact F3. }
Qed.

(** ** The loop *)
Lemma compress_normal_step turns d finish room src out :
  compress_normal (S turns) d finish room src out =
  if match src with [] => false | _ => true end || (finish && negb (d_lsize d =? 0)) then
    let (d2, src1) := (let (d1, src1) := fill d src in
       (set_position d1 (d_lpos d1) (d_lsize d1) (Z.min (TDEFL_LZ_DICT_SIZE - d_lsize d1) (d_dsize d1)), src1)) in
    if negb finish && (d_lsize d2 <? MAX_MATCH_LEN) then Ok (src1, out, d2)
    else
      let* x := step_token d2 in
      let d4 := moved (fst x) (snd x) in
      if block_full d4 then
        let* y := flush_block d4 false (room - len out) in
        match d_pend (snd y) with
        | [] => compress_normal turns (snd y) finish room src1 (out ++ fst y)
        | _ => Ok (src1, out ++ fst y, snd y)
        end
      else compress_normal turns d4 finish room src1 out
  else Ok (src, out, d).
Proof.
  cbn [compress_normal]. destruct (_ || _); [|reflexivity]. destruct (fill d src) as [d1 src1].
  destruct (negb finish && _); [reflexivity|]. unfold step_token, moved. destruct (find_match _) as [dist0 len0].
  cbv zeta. destruct (_ =? 0); [destruct (record_literal _ _)|destruct (record_match _ _ _)]; reflexivity.
Qed.
Definition entry (d : tdefl) : Prop := d_p d <= LZ_CODE_BUF_SIZE - 8 /\ d_lsize d <= 257.
Lemma same_status_refl d : same_status d d.
Proof. repeat split. Qed.
Lemma same_status_trans a b c : same_status a b -> same_status b c -> same_status a c.
Proof. unfold same_status. intuition congruence. Qed.

(** what one call of the loop does, from [inp], [em], [d] *)
Record ran (finish : bool) (room : Z) (src out inp em : bytes) (pos : Z) (d : tdefl)
    (src1 out1 taken em1 : bytes) (pos1 st1 : Z) (ts1 : list token) (d1 : tdefl) : Prop := {
  rn_src : src = taken ++ src1;
  rn_inv : cinv (inp ++ taken) (em ++ em1) pos1 st1 ts1 d1;
  rn_entry : entry d1;
  rn_em : em1 = out1 ++ d_pend d1;
  rn_room : len (out ++ out1) <= room;
  rn_done : d_pend d1 = [] -> src1 = [] /\ (finish = true -> d_lsize d1 = 0);
  rn_full : d_pend d1 = [] \/ len (out ++ out1) = room;
  rn_pos : pos <= pos1;
  rn_moved : pos1 = pos -> em1 = [];
  rn_pend : len (d_pend d1) <= OUT_LIMIT;
  rn_status : same_status d d1
}.
Lemma compress_normal_ok finish room : forall turns src out inp em pos st ts d,
  cinv inp em pos st ts d -> entry d -> bytes_ok src -> d_pend d = [] -> len out <= room ->
  len src + d_lsize d < Z.of_nat turns ->
  exists src1 out1 taken em1 pos1 st1 ts1 d1,
    compress_normal turns d finish room src out = Ok (src1, out ++ out1, d1) /\
    ran finish room src out inp em pos d src1 out1 taken em1 pos1 st1 ts1 d1.
Proof.
  pose proof OUT_LIMIT_eq as OL.
  induction turns as [|turns IH]; intros src out inp em pos st ts d C [EP EL] BS PE HR HT.
  { destruct C. pose proof (len_nonneg _ src). lia. }
  rewrite compress_normal_step. destruct (_ || _) eqn:GO.
  2:{ apply orb_false_iff in GO. destruct GO as [G1 G2]. destruct src; [|discriminate].
      exists [], [], [], [], pos, st, ts, d. split; [rewrite app_nil_r; reflexivity|].
      constructor; rewrite ?app_nil_r; auto.
      - split; assumption.
      - intros _. split; [reflexivity|]. intros ->. cbn [andb] in G2. lia.
      - lia.
      - rewrite PE, len_nil. lia.
      - apply same_status_refl. }
  destruct (cinv_fill _ _ _ _ _ _ src C BS) as (d2 & E2 & C2 & L2 & P2 & PE2 & SS2). cbv zeta in *. rewrite E2. clear E2.
  set (taken := ztake (258 - d_lsize d) src) in *. set (rest := zdrop (258 - d_lsize d) src) in *.
  assert (src = taken ++ rest) as ES by (symmetry; apply ztake_zdrop).
  assert (len src = len taken + len rest) as ELS by (rewrite ES at 1; apply len_app).
  pose proof (len_nonneg _ rest) as NR. pose proof (len_nonneg _ taken) as NT.
  assert (bytes_ok rest) as BR by (now apply bytes_ok_zdrop).
  pose proof (cv_lsize _ _ _ _ _ _ C) as LS0.
  destruct (negb finish && _) eqn:STOP.
  { apply andb_true_iff in STOP. destruct STOP as [S1 S2]. unfold MAX_MATCH_LEN in S2.
    assert (rest = []) as RE.
    { apply zdrop_all. unfold taken in L2. rewrite len_ztake in L2. pose proof (len_nonneg _ src). lia. }
    rewrite RE in *. exists [], [], taken, [], pos, st, ts, d2. split; [rewrite app_nil_r; reflexivity|].
    constructor; rewrite ?app_nil_r; auto.
    - now rewrite app_nil_r in ES.
    - split; [lia|lia].
    - now rewrite PE2, PE.
    - intros _. split; [reflexivity|]. intros ->. discriminate.
    - rewrite PE2, PE. auto.
    - lia.
    - rewrite PE2, PE, len_nil. lia. }
  assert (1 <= d_lsize d2) as L1.
  { unfold MAX_MATCH_LEN in STOP. destruct finish; cbn [negb andb] in STOP; [|lia].
    apply orb_true_iff in GO. destruct GO as [G|G]; [|cbn [andb] in G; lia].
    destruct src as [|c src]; [discriminate|]. unfold taken in L2. rewrite len_ztake, len_cons in L2.
    pose proof (len_nonneg _ src). lia. }
  destruct (step_ok _ _ _ _ _ _ C2 L1) as (d3 & move & tok & E3 & HM & C4 & L4 & P4 & PE4 & SS4); [lia|].
  rewrite E3. cbn [obind fst snd]. set (d4 := moved d3 move) in *. clearbody d4. cbv zeta.
  unfold LZ_CODE_BUF_SIZE in EP. pose proof (cv_lsize _ _ _ _ _ _ C2) as LS2.
  destruct (block_full d4) eqn:BF.
  - destruct (flush_ok _ _ _ _ _ _ false (room - len out) C4) as (sent & d5 & E5 & SS5 & L5 & P5 & N5 & R5 & F5 & B5 & C5); [unfold LZ_CODE_BUF_SIZE; lia|lia|intros _; rewrite <- (cv_total _ _ _ _ _ _ C4); eapply codes_full; [apply C4|exact BF]|].
    rewrite E5. cbn [obind fst snd]. rewrite len_app in N5. pose proof (len_nonneg _ sent). pose proof (len_nonneg _ (d_pend d5)).
    destruct (d_pend d5) as [|c t] eqn:PD.
    + rewrite app_nil_r in C5. rewrite len_nil in *.
      destruct (IH rest (out ++ sent) (inp ++ taken) (em ++ sent) (pos + move) (pos + move) [] d5) as (src1 & out1 & taken1 & em1 & pos1 & st1 & ts1 & d1 & E & RN); auto.
      { split; [rewrite P5; unfold LZ_CODE_BUF_SIZE; lia|lia]. } { rewrite len_app. lia. } { lia. }
      rewrite E. destruct RN. exists src1, (sent ++ out1), (taken ++ taken1), (sent ++ em1), pos1, st1, ts1, d1.
      split; [now rewrite app_assoc|].
      constructor; auto.
      * rewrite ES at 1. rewrite rn_src0. apply app_assoc.
      * now rewrite !app_assoc.
      * rewrite rn_em0. apply app_assoc.
      * now rewrite app_assoc.
      * rewrite (app_assoc out). exact rn_full0.
      * lia.
      * lia.
      * eapply same_status_trans; [|exact rn_status0]. eapply same_status_trans; [|exact SS5]. eapply same_status_trans; eassumption.
    + destruct F5 as [F5|F5]; [discriminate|].
      exists rest, sent, taken, (sent ++ d_pend d5), (pos + move), (pos + move), [], d5. rewrite PD. split; [reflexivity|].
      constructor; rewrite ?PD; auto.
      * split; [rewrite P5; unfold LZ_CODE_BUF_SIZE; lia|lia].
      * rewrite len_app. lia.
      * discriminate.
      * right. rewrite len_app. lia.
      * lia.
      * lia.
      * lia.
      * eapply same_status_trans; [|exact SS5]. eapply same_status_trans; eassumption.
  - assert (d_p d4 <= LZ_CODE_BUF_SIZE - 8) as P48.
    { unfold block_full in BF. apply orb_false_iff in BF. destruct BF as [BF _]. lia. }
    destruct (IH rest out (inp ++ taken) em (pos + move) st (ts ++ [tok]) d4) as (src1 & out1 & taken1 & em1 & pos1 & st1 & ts1 & d1 & E & RN); auto.
    { split; [exact P48|lia]. } { congruence. } { lia. }
    rewrite E. destruct RN. exists src1, out1, (taken ++ taken1), em1, pos1, st1, ts1, d1. split; [reflexivity|].
    constructor; auto.
    * rewrite ES at 1. rewrite rn_src0. apply app_assoc.
    * now rewrite !app_assoc.
    * lia.
    * lia.
    * eapply same_status_trans; [|exact rn_status0]. eapply same_status_trans; eassumption.
Qed.

(** ** Calls of the compressor.  [sent]: bytes handed out so far *)
Definition running (inp sent : bytes) (d : tdefl) : Prop :=
  (exists pos st ts, cinv inp (sent ++ d_pend d) pos st ts d) /\ entry d /\ len (d_pend d) <= OUT_LIMIT /\
  d_finished d = false /\ d_prev d = TDEFL_OKAY.
Definition ended (inp sent : bytes) (d : tdefl) : Prop :=
  (deflates_to (sent ++ d_pend d) inp /\ fair_size (len inp) (len (sent ++ d_pend d))) /\ len (d_pend d) <= OUT_LIMIT /\ d_finished d = true /\ d_wants d = true /\
  d_lsize d = 0 /\ d_prev d = match d_pend d with [] => TDEFL_DONE | _ => TDEFL_OKAY end.
Lemma cinv_ext inp em pos st ts d d' : cinv inp em pos st ts d ->
  d_dict d' = d_dict d -> d_lpos d' = d_lpos d -> d_lsize d' = d_lsize d -> d_dsize d' = d_dsize d -> d_total d' = d_total d ->
  d_start d' = d_start d -> d_buf d' = d_buf d -> d_p d' = d_p d -> d_flags d' = d_flags d -> d_left d' = d_left d ->
  d_count0 d' = d_count0 d -> d_count1 d' = d_count1 d -> d_bb d' = d_bb d -> d_nb d' = d_nb d -> cinv inp em pos st ts d'.
Proof.
  intros [] E1 E2 E3 E4 E5 E6 E7 E8 E9 E10 E11 E12 E13 E14.
  constructor; rewrite ?E1, ?E2, ?E3, ?E4, ?E6, ?E13, ?E14; try assumption.
  destruct cv_codes0. constructor; rewrite ?E5, ?E7, ?E8, ?E9, ?E10, ?E11, ?E12; assumption.
Qed.
Ltac same_cinv C := eapply cinv_ext; [exact C|reflexivity..].
Lemma len_pos_cons A (x : A) l : 0 < len (x :: l).
Proof. rewrite len_cons. pose proof (len_nonneg _ l). lia. Qed.

Lemma flush_output_ok d room : 0 <= room -> exists o d1 status, flush_output_buffer d room = (o, d1, status) /\
  d_pend d = o ++ d_pend d1 /\ len o <= room /\ (d_pend d1 = [] \/ len o = room) /\
  status = (if d_finished d && (match d_pend d1 with [] => true | _ => false end) then TDEFL_DONE else TDEFL_OKAY) /\
  d1 = set_status (set_pend d (d_pend d1)) (d_finished d) (d_wants d) status.
Proof.
  intros HR. unfold flush_output_buffer. cbv zeta. eexists _, _, _. split; [reflexivity|]. cbn [set_status set_pend d_pend].
  split; [now rewrite ztake_zdrop|]. pose proof (len_nonneg _ (d_pend d)). rewrite len_ztake. split; [lia|].
  split; [|split; reflexivity].
  destruct (Z_le_gt_dec (len (d_pend d)) room); [left; now apply zdrop_all|right; lia].
Qed.
(** the state after a call: [o] handed out, [taken] taken *)
Definition now_at (inp sent : bytes) (d : tdefl) : Prop := running inp sent d \/ ended inp sent d.
Record called (finish : bool) (room : Z) (src inp sent : bytes) (d : tdefl)
    (status : Z) (src1 o taken : bytes) (d1 : tdefl) : Prop := {
  cl_src : src = taken ++ src1;
  cl_room : len o <= room;
  cl_now : now_at (inp ++ taken) (sent ++ o) d1;
  cl_status : status = d_prev d1;
  cl_end : d_finished d1 = true -> d_finished d = true \/ src1 = [];
  cl_wants : d_wants d1 = true -> finish = true;
  cl_full : len o < room -> d_pend d1 = [];
  cl_measure : len src1 + d_lsize d1 <= len src + d_lsize d;
  cl_big : OUT_LIMIT < len o -> len src1 + d_lsize d1 < len src + d_lsize d
}.
(** there was output left from the last call *)
Lemma compress_pending finish room src inp sent d : now_at inp sent d -> d_prev d = TDEFL_OKAY ->
  (d_wants d = true -> finish = true) -> 0 <= room -> d_pend d <> [] ->
  exists status o d1, tdefl_compress d src room finish = Ok (status, src, o, d1) /\
    called finish room src inp sent d status src o [] d1 /\ d_finished d1 = d_finished d /\ len o <= OUT_LIMIT.
Proof.
  intros NA PV WF HR PN. unfold tdefl_compress. rewrite PV. cbn [TDEFL_OKAY Z.eqb negb orb].
  replace (d_wants d && negb finish) with false by (destruct (d_wants d) eqn:E; [rewrite WF by reflexivity|]; reflexivity).
  cbv zeta. cbn [set_status d_pend d_finished].
  destruct (d_pend d) as [|c t] eqn:PD; [congruence|]. cbn [orb].
  match goal with |- context [flush_output_buffer ?x room] => set (d0 := x) end.
  destruct (flush_output_ok d0 room HR) as (o & d1 & status & -> & E1 & E2 & E3 & E4 & E5).
  cbn [d0 set_status d_pend d_finished d_wants] in E1, E4, E5.
  eexists _, _, _. split; [reflexivity|].
  assert (d_lsize d1 = d_lsize d) as EL by (rewrite E5; reflexivity).
  assert (d_wants d1 = d_wants d || finish) as EW by (rewrite E5; reflexivity).
  assert (d_prev d1 = status) as EP by (rewrite E5; reflexivity).
  assert (d_finished d1 = d_finished d) as EF by (rewrite E5; reflexivity).
  assert (len (d_pend d1) <= len (d_pend d)) as PL by (rewrite E1, len_app; pose proof (len_nonneg _ o); lia).
  assert (len o <= len (d_pend d)) as OL2 by (rewrite E1, len_app; pose proof (len_nonneg _ (d_pend d1)); lia).
  assert (len (d_pend d) <= OUT_LIMIT) as PL2 by (destruct NA as [(_ & _ & H & _)|(_ & H & _)]; exact H).
  split; [|split; [exact EF|lia]].
  constructor; auto.
  - rewrite app_nil_r. destruct NA as [(C & EN & PL0 & F & _)|(DT & PL0 & F & W & L & _)]; [left|right].
    + rewrite F in *. split; [|split; [|split; [|split]]].
      * destruct C as (pos & st & ts & C). exists pos, st, ts. rewrite <- app_assoc, <- E1. rewrite E5. same_cinv C.
      * rewrite E5. exact EN.
      * lia.
      * exact EF.
      * rewrite EP, E4. reflexivity.
    + rewrite F in *. cbn [andb] in E4. split; [|split; [|split; [|split; [|split]]]].
      * rewrite <- app_assoc, <- E1. exact DT.
      * lia.
      * exact EF.
      * rewrite EW, W. reflexivity.
      * lia.
      * rewrite EP, E4. destruct (d_pend d1); reflexivity.
  - rewrite EF. auto.
  - rewrite EW. intros H. apply orb_true_iff in H. destruct H; auto.
  - intros H. destruct E3; [assumption|lia].
  - lia.
  - lia.
Qed.
(** there was none *)
Lemma compress_running finish room src inp sent d : running inp sent d -> d_pend d = [] ->
  (d_wants d = true -> finish = true) -> 0 <= room -> bytes_ok src ->
  exists status src1 o taken d1, tdefl_compress d src room finish = Ok (status, src1, o, d1) /\
    called finish room src inp sent d status src1 o taken d1 /\
    (len o < room -> src1 = [] /\ (finish = true -> ended (inp ++ taken) (sent ++ o) d1)).
Proof.
  intros (C & EN & PL0 & F & PV) PE WF HR BS. unfold tdefl_compress. rewrite PV. cbn [TDEFL_OKAY Z.eqb negb orb].
  replace (d_wants d && negb finish) with false by (destruct (d_wants d) eqn:E; [rewrite WF by reflexivity|]; reflexivity).
  cbv zeta. cbn [set_status d_pend d_finished]. rewrite PE, F. cbn [orb].
  match goal with |- context [compress_normal _ ?x] => set (d0 := x) end.
  destruct C as (pos & st & ts & C). rewrite PE, app_nil_r in C.
  assert (cinv inp sent pos st ts d0) as C0 by (same_cinv C).
  destruct (compress_normal_ok finish room (compress_fuel d0 src) src [] inp sent pos st ts d0 C0 EN BS PE) as (src1 & out1 & taken & em1 & pos1 & st1 & ts1 & d1 & -> & []).
  { rewrite len_nil. lia. }
  { unfold compress_fuel. pose proof (cv_lsize _ _ _ _ _ _ C0). unfold len. lia. }
  cbn [obind app] in *. destruct rn_status0 as (SF & SW & SP). cbn [d0 d_finished d_wants d_prev] in SF, SW, SP.
  assert (len inp = pos + d_lsize d) as EQ1 by apply (cv_len _ _ _ _ _ _ C).
  pose proof (cv_len _ _ _ _ _ _ rn_inv0) as EQ2. rewrite len_app in EQ2.
  assert (len src = len taken + len src1) as EQ3 by (rewrite rn_src0; apply len_app).
  destruct (finish && (d_lsize d1 =? 0) && _ && _) eqn:LAST.
  - apply andb_true_iff in LAST. destruct LAST as [LAST L4]. apply andb_true_iff in LAST. destruct LAST as [LAST L3].
    apply andb_true_iff in LAST. destruct LAST as [L1 L2]. subst finish.
    destruct src1; [|discriminate]. clear L3. destruct (d_pend d1) eqn:PD1; [|discriminate]. clear L4.
    rewrite app_nil_r in rn_em0. rewrite len_nil in EQ3. subst em1.
    destruct rn_entry0 as [RE1 RE2].
    destruct (flush_ok _ _ _ _ _ _ true (room - len out1) rn_inv0) as (sent5 & d5 & -> & SS5 & L5 & P5 & N5 & R5 & F5 & B5 & C5).
    { unfold LZ_CODE_BUF_SIZE in *. lia. } { lia. } { discriminate. }
    cbn [obind fst snd] in *. set (d6 := set_status d5 true (d_wants d5) (d_prev d5)).
    destruct (flush_output_ok d6 (room - len (out1 ++ sent5))) as (o & d7 & status & -> & E1 & E2 & E3 & E4 & E5); [rewrite len_app; lia|].
    cbn [d6 set_status d_pend d_finished d_wants andb] in E1, E4, E5. rewrite len_app in E2.
    destruct SS5 as (SF5 & SW5 & SP5).
    assert (d_lsize d7 = d_lsize d5) as EL by (rewrite E5; reflexivity).
    assert (d_wants d7 = d_wants d5) as EW by (rewrite E5; reflexivity).
    assert (d_prev d7 = status) as EP by (rewrite E5; reflexivity).
    assert (d_finished d7 = true) as EF by (rewrite E5; reflexivity).
    exists status, [], ((out1 ++ sent5) ++ o), taken, d7. split; [reflexivity|].
    rewrite E1, !len_app in N5. pose proof (len_nonneg _ sent5). pose proof (len_nonneg _ o). pose proof (len_nonneg _ (d_pend d7)). pose proof (len_nonneg _ taken). pose proof (len_nonneg _ out1).
    assert (ended (inp ++ taken) (sent ++ (out1 ++ sent5) ++ o) d7) as END.
    { split; [|split; [|split; [|split; [|split]]]].
      - rewrite E1 in C5. rewrite ztake_all in C5 by (rewrite len_app; lia).
        replace ((sent ++ (out1 ++ sent5) ++ o) ++ d_pend d7) with ((sent ++ out1) ++ sent5 ++ o ++ d_pend d7) by (now rewrite <- !app_assoc).
        destruct C5 as [C5 C6]. split; [exact C5|]. replace (len (inp ++ taken)) with pos1 by (rewrite len_app; lia). exact C6.
      - lia.
      - exact EF.
      - rewrite EW, SW5, SW. cbn [d0]. apply orb_true_r.
      - lia.
      - rewrite EP, E4. destruct (d_pend d7); reflexivity. }
    split; [|intros _; auto].
    constructor; auto.
    + rewrite !len_app. lia.
    + now right.
    + rewrite !len_app. intros H9. destruct E3 as [E3|E3]; [assumption|]. rewrite len_app in E3. lia.
    + rewrite len_nil. lia.
    + rewrite !len_app. intros H9. rewrite len_nil. assert (pos1 <> pos) as NE.
      { intros E. specialize (rn_moved0 E). rewrite rn_moved0 in *. rewrite len_nil in *. lia. }
      lia.
  - cbn [obind]. destruct (flush_output_ok d1 (room - len out1)) as (o & d7 & status & -> & E1 & E2 & E3 & E4 & E5); [lia|].
    assert (d_finished d1 = false) as SF1 by (rewrite SF; first [exact F|reflexivity]). rewrite SF1 in E4, E5. cbn [andb] in E4.
    assert (d_lsize d7 = d_lsize d1) as EL by (rewrite E5; reflexivity).
    assert (d_wants d7 = d_wants d1) as EW by (rewrite E5; reflexivity).
    assert (d_prev d7 = status) as EP by (rewrite E5; reflexivity).
    assert (d_finished d7 = false) as EF by (rewrite E5; reflexivity).
    exists status, src1, (out1 ++ o), taken, d7. split; [reflexivity|]. pose proof (len_nonneg _ o). pose proof (len_nonneg _ (d_pend d7)). pose proof (len_nonneg _ taken). pose proof (len_nonneg _ out1).
    assert (len (d_pend d7) <= len (d_pend d1)) as PL by (rewrite E1, len_app; lia).
    split.
    + constructor; auto.
      * rewrite len_app. lia.
      * left. split; [|split; [|split; [|split]]].
        -- exists pos1, st1, ts1. replace ((sent ++ out1 ++ o) ++ d_pend d7) with (sent ++ em1) by (rewrite rn_em0, E1, <- !app_assoc; reflexivity).
           rewrite E5. same_cinv rn_inv0.
        -- rewrite E5. exact rn_entry0.
        -- lia.
        -- exact EF.
        -- rewrite EP, E4. reflexivity.
      * rewrite EF. discriminate.
      * rewrite EW, SW. intros H9. apply orb_true_iff in H9. destruct H9; auto.
      * rewrite len_app. intros H9. destruct E3 as [E3|E3]; [assumption|lia].
      * lia.
      * intros H9. rewrite len_app in H9. assert (pos1 <> pos) as NE.
        { intros E. specialize (rn_moved0 E). subst em1. assert (len (out1 ++ d_pend d1) = 0) as Z0 by (rewrite rn_moved0; reflexivity).
          rewrite len_app, E1, len_app in Z0. pose proof OUT_LIMIT_eq. lia. }
        lia.
    + rewrite len_app. intros H9. assert (d_pend d7 = []) as P7 by (destruct E3; [assumption|lia]).
      assert (d_pend d1 = []) as P1.
      { destruct rn_full0 as [|H8]; [assumption|]. rewrite P7, app_nil_r in E1. destruct o; [exact E1|].
        rewrite len_cons in *. pose proof (len_nonneg _ o). lia. }
      destruct (rn_done0 P1) as [-> FI]. split; [reflexivity|]. intros ->. rewrite (FI eq_refl), P1 in LAST. discriminate.
Qed.

(** ** mz_deflate *)
Lemma now_prev inp sent d : now_at inp sent d -> d_prev d = TDEFL_OKAY \/ (d_prev d = TDEFL_DONE /\ ended inp sent d /\ d_pend d = []).
Proof.
  intros [(_ & _ & _ & _ & H)|E]; [now left|]. pose proof E as (_ & _ & _ & _ & _ & H). destruct (d_pend d); [right; auto|now left].
Qed.
Record deflated (finish : bool) (room : Z) (src inp sent : bytes) (d : tdefl)
    (ret : Z) (src1 o taken : bytes) (d1 : tdefl) : Prop := {
  df_src : src = taken ++ src1;
  df_room : len o <= room;
  df_now : now_at (inp ++ taken) (sent ++ o) d1;
  df_wants : d_wants d1 = true -> finish = true;
  df_ret : ret <> MZ_STREAM_ERROR;
  df_end : d_finished d1 = true -> src1 = [];
  df_full : len o < room -> d_pend d1 = [] /\ src1 = [] /\
            (finish = true -> ended (inp ++ taken) (sent ++ o) d1 /\ ret = MZ_STREAM_END);
  df_big : 2 * OUT_LIMIT < len o -> len src1 + d_lsize d1 < len src + d_lsize d
}.
Lemma loop_running turns finish room src inp sent d mv out : running inp sent d -> d_pend d = [] ->
  (d_wants d = true -> finish = true) -> bytes_ok src -> len out < room ->
  exists ret src1 o taken d1, deflate_loop (S turns) d src room finish mv out = Ok (ret, src1, out ++ o, d1) /\
    src = taken ++ src1 /\ len o <= room - len out /\ now_at (inp ++ taken) (sent ++ o) d1 /\
    (d_wants d1 = true -> finish = true) /\ ret <> MZ_STREAM_ERROR /\ (d_finished d1 = true -> src1 = []) /\
    (len o < room - len out -> d_pend d1 = [] /\ src1 = [] /\
            (finish = true -> ended (inp ++ taken) (sent ++ o) d1 /\ ret = MZ_STREAM_END)) /\
    (OUT_LIMIT < len o -> len src1 + d_lsize d1 < len src + d_lsize d).
Proof.
  intros RU PE WF BS HR. cbn [deflate_loop].
  destruct (compress_running finish (room - len out) src inp sent d RU PE WF ltac:(lia) BS) as (status & src1 & o & taken & d1 & -> & [] & DN).
  cbn [obind]. pose proof (now_prev _ _ _ cl_now0) as NP. rewrite <- cl_status0 in NP.
  assert (d_finished d1 = true -> src1 = []) as FE.
  { intros H. destruct (cl_end0 H) as [H'|]; [|assumption]. destruct RU as (_ & _ & _ & F & _). congruence. }
  assert ((status <? 0) = false) as -> by (destruct NP as [->|(-> & _)]; reflexivity).
  destruct (Z.eqb_spec status TDEFL_DONE) as [E|E].
  - destruct NP as [NP|(NP & EN & PD)]; [rewrite NP in E; discriminate|].
    exists MZ_STREAM_END, src1, o, taken, d1. split; [reflexivity|]. repeat (split; [solve [assumption|discriminate]|]).
    split; [|assumption]. intros H. destruct (DN H). auto.
  - destruct NP as [NP|(NP & EN & PD)]; [|congruence]. rewrite len_app.
    destruct (Z.eqb_spec (room - (len out + len o)) 0) as [F|F].
    + exists MZ_OK, src1, o, taken, d1. split; [reflexivity|]. repeat (split; [solve [assumption|discriminate]|]).
      split; [|assumption]. intros H. lia.
    + assert (len o < room - len out) as LT by lia. destruct (DN LT) as [-> FI].
      destruct finish.
      * destruct (FI eq_refl) as (_ & _ & _ & _ & _ & HP). rewrite (cl_full0 LT) in HP. rewrite <- cl_status0 in HP. rewrite HP in E. congruence.
      * cbn [andb negb]. eexists _, [], o, taken, d1. split; [reflexivity|]. do 4 (split; [assumption|]).
        split; [destruct (_ || _); discriminate|]. split; [assumption|]. split; [|assumption]. intros _. split; [auto|]. split; [reflexivity|discriminate].
Qed.
Lemma mz_deflate_ok finish room src inp sent d : now_at inp sent d -> (d_wants d = true -> finish = true) ->
  (ended inp sent d -> src = [] /\ finish = true) -> bytes_ok src -> 0 < room ->
  exists ret src1 o taken d1, mz_deflate d src room finish = Ok (ret, src1, o, d1) /\
    deflated finish room src inp sent d ret src1 o taken d1.
Proof.
  intros NA WF EF BS HR. unfold mz_deflate. pose proof OUT_LIMIT_eq as OL.
  destruct (now_prev _ _ _ NA) as [NP|(NP & EN & PD)].
  2:{ destruct (EF EN) as [-> ->]. rewrite NP, Z.eqb_refl. exists MZ_STREAM_END, [], [], [], d. split; [reflexivity|].
      constructor; rewrite ?app_nil_r; rewrite ?len_nil; auto; [lia|discriminate|lia]. }
  rewrite NP. replace (TDEFL_OKAY =? TDEFL_DONE) with false by reflexivity.
  destruct (d_pend d) as [|c t] eqn:PD.
  - assert (running inp sent d) as RU.
    { destruct NA as [|EN]; [assumption|]. destruct EN as (_ & _ & _ & _ & _ & HP). rewrite PD, NP in HP. discriminate. }
    destruct (loop_running 3 finish room src inp sent d false [] RU PD WF BS) as (ret & src1 & o & taken & d1 & E & H1 & H2 & H3 & H4 & H5 & H5' & H6 & H7); [rewrite len_nil; lia|].
    rewrite E. rewrite len_nil, Z.sub_0_r in *. exists ret, src1, o, taken, d1. split; [reflexivity|]. constructor; auto.
    intros H. apply H7. lia.
  - change 4%nat with (S 3). set (three := 3%nat). cbn [deflate_loop]. rewrite len_nil, Z.sub_0_r.
    destruct (compress_pending finish room src inp sent d NA NP WF ltac:(lia)) as (status & o & d1 & -> & [] & FE & OL1); [rewrite PD; discriminate|].
    cbn [obind app] in *. rewrite app_nil_r in cl_now0. pose proof (now_prev _ _ _ cl_now0) as NP1. rewrite <- cl_status0 in NP1.
    assert ((status <? 0) = false) as -> by (destruct NP1 as [->|(-> & _)]; reflexivity).
    destruct (Z.eqb_spec status TDEFL_DONE) as [E|E].
    + destruct NP1 as [NP1|(NP1 & EN1 & PD1)]; [rewrite NP1 in E; discriminate|].
      assert (ended inp sent d) as EN.
      { destruct NA as [RU|]; [|assumption]. destruct RU as (_ & _ & _ & F & _). exfalso.
        assert (d_finished d1 = true) by (apply EN1). congruence. }
      destruct (EF EN) as [-> ->]. exists MZ_STREAM_END, [], o, [], d1. split; [reflexivity|].
      constructor; rewrite ?app_nil_r; auto; [discriminate|lia].
    + destruct NP1 as [NP1|(NP1 & EN1 & PD1)]; [|congruence].
      destruct (Z.eqb_spec (room - len o) 0) as [F|F].
      { exists MZ_OK, src, o, [], d1. split; [reflexivity|]. constructor; rewrite ?app_nil_r; auto; [discriminate| |lia|lia].
        intros H. rewrite FE in H. destruct NA as [(_ & _ & _ & F' & _)|EN]; [congruence|]. now apply EF. }
      assert (d_pend d1 = []) as PD1 by (apply cl_full0; lia).
      assert (running inp (sent ++ o) d1) as RU1.
      { destruct cl_now0 as [|EN1]; [assumption|]. destruct EN1 as (_ & _ & _ & _ & _ & HP). rewrite PD1, <- cl_status0, NP1 in HP. discriminate. }
      destruct (_ && negb finish) eqn:ST.
      { apply andb_true_iff in ST. destruct ST as [S1 S2]. destruct src; [|discriminate]. destruct finish; [discriminate|].
        eexists _, [], o, [], d1. split; [reflexivity|]. constructor; rewrite ?app_nil_r; auto; [destruct (_ || _); discriminate| |lia].
        intros _. split; [assumption|]. split; [reflexivity|discriminate]. }
      destruct (loop_running 2 finish room src inp (sent ++ o) d1 (false || negb (len src =? len src) || negb (len o =? 0)) o RU1 PD1 cl_wants0 BS) as (ret & src1 & o2 & taken & d2 & E2 & H1 & H2 & H3 & H4 & H5 & H5' & H6 & H7); [lia|].
      subst three. rewrite E2. exists ret, src1, (o ++ o2), taken, d2. split; [reflexivity|]. rewrite <- app_assoc in *.
      constructor; rewrite ?len_app; auto; [lia| |].
      * intros H. apply H6. lia.
      * intros H. lia.
Qed.

(** ** npy_deflate *)
Lemma chunk_ok v finish : forall turns src inp sent d out, now_at inp sent d -> (d_wants d = true -> finish = true) ->
  (ended inp sent d -> src = [] /\ finish = true) -> bytes_ok src -> 0 <= d_lsize d -> len src + d_lsize d < Z.of_nat turns ->
  exists ret o d1, deflate_chunk turns v d src finish out = Ok (ret, [], out ++ o, d1) /\
    now_at (inp ++ src) (sent ++ o) d1 /\ d_pend d1 = [] /\ (d_wants d1 = true -> finish = true) /\
    (finish = true -> ended (inp ++ src) (sent ++ o) d1 /\ ret = MZ_STREAM_END).
Proof.
  pose proof OUT_LIMIT_eq as OL.
  induction turns as [|turns IH]; intros src inp sent d out NA WF EF BS HL HT; [pose proof (len_nonneg _ src); lia|].
  cbn [deflate_chunk]. destruct (mz_deflate_ok finish CHUNK src inp sent d NA WF EF BS) as (ret & src1 & o & taken & d1 & -> & []); [reflexivity|].
  cbn [obind]. replace (dbg v && (ret =? MZ_STREAM_ERROR)) with false by (destruct (dbg v); [cbn [andb]; symmetry; now apply Z.eqb_neq|reflexivity]).
  destruct (Z.eqb_spec (CHUNK - len o) 0) as [F|F].
  - assert (len src1 + d_lsize d1 < len src + d_lsize d) as DEC by (apply df_big0; change CHUNK with 1048576 in F; lia).
    assert (bytes_ok src1) as BS1 by (rewrite df_src0 in BS; apply bytes_ok_app in BS; exact (proj2 BS)).
    assert (0 <= d_lsize d1) as L1.
    { destruct df_now0 as [((? & ? & ? & C) & _)|(_ & _ & _ & _ & L & _)]; [apply (cv_lsize _ _ _ _ _ _ C)|lia]. }
    destruct (IH src1 (inp ++ taken) (sent ++ o) d1 (out ++ o)) as (ret2 & o2 & d2 & -> & H1 & H2 & H3 & H4); auto.
    { intros EN. pose proof EN as (_ & _ & _ & W & _). split; [|auto]. apply df_end0. apply EN. }
    { lia. }
    exists ret2, (o ++ o2), d2. rewrite df_src0. rewrite <- !app_assoc in *. auto.
  - assert (len o < CHUNK) as LT by lia. destruct (df_full0 LT) as (P1 & -> & FI). rewrite app_nil_r in df_src0. subst taken.
    exists ret, o, d1. auto.
Qed.
Lemma running_lsize inp sent d : running inp sent d -> 0 <= d_lsize d <= 257.
Proof. intros ((? & ? & ? & C) & [_ H] & _). pose proof (cv_lsize _ _ _ _ _ _ C). lia. Qed.
Lemma CHUNK_eq : CHUNK = 1048576.
Proof. reflexivity. Qed.
Lemma chunks_ok v : forall turns input inp sent d, running inp sent d -> d_wants d = false -> bytes_ok input ->
  (length input < turns)%nat ->
  exists z, deflate_chunks turns v d input sent = Ok z /\ deflates_to z (inp ++ input) /\
    fair_size (len (inp ++ input)) (len z).
Proof.
  induction turns as [|turns IH]; intros input inp sent d RU WF BI HT; [lia|]. cbn [deflate_chunks].
  pose proof (running_lsize _ _ _ RU) as LS. pose proof (len_nonneg _ input).
  assert (bytes_ok (ztake CHUNK input)) as BC by (now apply bytes_ok_ztake).
  set (finish := len (ztake CHUNK input) <? CHUNK).
  destruct (chunk_ok v finish (length input + 300) (ztake CHUNK input) inp sent d sent) as (ret & o & d1 & -> & H1 & H2 & H3 & H4); auto.
  { now left. } { rewrite WF. discriminate. }
  { intros (_ & _ & _ & W & _). congruence. } { lia. }
  { rewrite len_ztake. unfold len. lia. }
  cbn [obind]. rewrite len_nil. replace (dbg v && negb (0 =? 0)) with false by (destruct (dbg v); reflexivity).
  destruct finish eqn:F.
  - destruct (H4 eq_refl) as [EN ->]. replace (dbg v && negb (MZ_STREAM_END =? MZ_STREAM_END)) with false by (destruct (dbg v); reflexivity).
    eexists. split; [reflexivity|]. destruct EN as (D & _). rewrite H2, app_nil_r in D.
    assert (ztake CHUNK input = input) as E.
    { apply ztake_all. subst finish. rewrite len_ztake in F. lia. }
    rewrite E in D. exact D.
  - assert (running (inp ++ ztake CHUNK input) (sent ++ o) d1) as RU1.
    { destruct H1 as [|EN]; [assumption|]. destruct EN as (_ & _ & _ & W & _). discriminate (H3 W). }
    assert (len (ztake CHUNK input) = CHUNK) as LC by (subst finish; rewrite len_ztake in F |- *; rewrite CHUNK_eq in F |- *; lia).
    destruct (IH (zdrop CHUNK input) (inp ++ ztake CHUNK input) (sent ++ o) d1 RU1) as (z & E & D).
    { destruct (d_wants d1); [discriminate (H3 eq_refl)|reflexivity]. }
    { now apply bytes_ok_zdrop. }
    { rewrite len_ztake in LC. pose proof (len_zdrop _ CHUNK input) as LD. rewrite CHUNK_eq in *. unfold len in *. lia. }
    rewrite E. exists z. split; [reflexivity|]. rewrite <- app_assoc, ztake_zdrop in D. exact D.
Qed.

Theorem npy_deflate_ok v dict next buf b : byte_cells buf -> bytes_ok b ->
  exists z, npy_deflate v dict next buf b = Ok z /\ deflates_to z b /\ fair_size (len b) (len z).
Proof.
  intros BC BB. unfold npy_deflate. destruct (chunks_ok v (S (length b)) b [] [] (new_tdefl dict next buf)) as (z & E & D).
  - split; [|split; [|split; [|split]]]; try reflexivity.
    + exists 0, 0, []. constructor; cbn [new_tdefl d_lsize d_lpos d_dsize d_start d_dict d_nb d_bb]; try reflexivity; try lia.
      * constructor.
      * apply ring_nil.
      * apply codes_inv_start; try reflexivity. exact BC.
      * constructor.
      * constructor.
      * apply pre_nil.
    + split; vm_compute; congruence.
    + vm_compute. congruence.
  - reflexivity.
  - exact BB.
  - lia.
  - exists z. auto.
Qed.
