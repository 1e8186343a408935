(** The compressor's bit output (src/miniz/miniz.cpp 989-998, 1102-1189). *)
From Coq Require Import ZArith List Bool Lia.
From Verif Require Import Base Arr Tinfl Tdefl BaseFacts DeflateSpec BitFacts HuffFacts MinRed DeflHuff.
Import ListNotations.
Open Scope Z_scope.

(** the bits in an output buffer *)
Definition obits (o : obuf) : list bool :=
  bits_of (rev (ob_rev o)) ++ lsb_bits (Z.to_nat (ob_nb o)) (ob_bb o).
Record owf (o : obuf) : Prop := {
  ow_nb : 0 <= ob_nb o;
  ow_bb : 0 <= ob_bb o < 2 ^ ob_nb o;
  ow_n : ob_n o = len (ob_rev o);
  ow_bytes : bytes_ok (ob_rev o)
}.
(** [o'] is [o] with [bits] appended, unless the buffer filled up *)
Record emits (o o' : obuf) (bits : list bool) : Prop := {
  em_wf : owf o';
  em_nb : ob_nb o' < 8;
  em_mono : ob_n o <= ob_n o';
  em_len : 8 * ob_n o' + ob_nb o' <= 8 * ob_n o + ob_nb o + len bits;
  em_bits : ob_n o' < OUT_LIMIT \/ 8 * ob_n o + ob_nb o + len bits <= 8 * OUT_LIMIT ->
            obits o' = obits o ++ bits
}.
Lemma emits_trans a b c x y : emits a b x -> emits b c y -> emits a c (x ++ y).
Proof.
  intros [] []. constructor; try assumption; [lia|rewrite len_app; lia|].
  intros H. rewrite len_app in H. rewrite em_bits1 by lia. pose proof (len_nonneg _ y).
  rewrite em_bits0 by lia. now rewrite app_assoc.
Qed.
Lemma emits_nil o : owf o -> ob_nb o < 8 -> emits o o [].
Proof. intros. constructor; try assumption; [lia|rewrite len_nil; lia|intros; now rewrite app_nil_r]. Qed.

Lemma u8_range x : 0 <= u8 x < 256.
Proof. unfold u8. apply Z.mod_pos_bound. lia. Qed.
Lemma lsb_u8 x : lsb_bits 8 (u8 x) = lsb_bits 8 x.
Proof. unfold u8. change 256 with (2 ^ Z.of_nat 8). apply lsb_mod. Qed.
Lemma lsb_split_byte n v : (8 <= n)%nat ->
  lsb_bits n v = lsb_bits 8 v ++ lsb_bits (n - 8) (Z.shiftr v 8).
Proof.
  intros. replace n with (8 + (n - 8))%nat at 1 by lia. rewrite lsb_bits_app.
  rewrite Z.shiftr_div_pow2 by lia. reflexivity.
Qed.
Lemma shiftr_range v n k : 0 <= k <= n -> 0 <= v < 2 ^ n -> 0 <= Z.shiftr v k < 2 ^ (n - k).
Proof.
  intros Hk Hv. rewrite Z.shiftr_div_pow2 by lia. assert (0 < 2 ^ k) by (apply pow2_pos; lia).
  split; [apply Z.div_pos; lia|]. apply Z.div_lt_upper_bound; [lia|]. rewrite <- pow2_split by lia. lia.
Qed.

Lemma drain_ok turns : forall o, owf o -> ob_nb o < 8 * (Z.of_nat turns + 1) -> emits o (drain turns o) [].
Proof.
  induction turns as [|turns IH]; intros o W Hn; cbn [drain].
  - replace (ob_nb o >=? 8) with false by (symmetry; rewrite Z.geb_leb; apply Z.leb_gt; lia). apply emits_nil; [assumption|lia].
  - destruct (Z.geb_spec (ob_nb o) 8) as [H8|H8]; [|apply emits_nil; [assumption|lia]].
    destruct W as [W1 W2 W3 W4]. pose proof (shiftr_range (ob_bb o) (ob_nb o) 8 ltac:(lia) W2) as SR.
    destruct (Z.ltb_spec (ob_n o) OUT_LIMIT) as [HL|HL].
    + set (o1 := mk_obuf (u8 (ob_bb o) :: ob_rev o) (ob_n o + 1) (Z.shiftr (ob_bb o) 8) (ob_nb o - 8)).
      assert (owf o1) as WF1.
      { constructor; cbn [o1 ob_rev ob_n ob_bb ob_nb]; [lia|exact SR|rewrite len_cons; lia|].
        constructor; [apply u8_range|assumption]. }
      destruct (IH o1 WF1) as [E1 E2 E3 E4 E5]; [cbn [o1 ob_nb]; lia|]. cbn [o1 ob_n ob_nb] in E3, E4.
      constructor; try assumption; [lia|lia|]. intros Hb. rewrite E5 by (cbn [o1 ob_n ob_nb]; lia). rewrite app_nil_r, app_nil_r.
      unfold obits. cbn [o1 ob_rev ob_nb ob_bb rev]. rewrite bits_of_app. rewrite <- app_assoc. f_equal.
      rewrite (lsb_split_byte (Z.to_nat (ob_nb o))) by lia. cbn [bits_of flat_map]. rewrite app_nil_r, lsb_u8.
      f_equal. f_equal. lia.
    + set (o1 := mk_obuf (ob_rev o) (ob_n o) (Z.shiftr (ob_bb o) 8) (ob_nb o - 8)).
      assert (owf o1) as WF1 by (constructor; cbn [o1 ob_rev ob_n ob_bb ob_nb]; [lia|exact SR|assumption|assumption]).
      destruct (IH o1 WF1) as [E1 E2 E3 E4 E5]; [cbn [o1 ob_nb]; lia|]. cbn [o1 ob_n ob_nb] in E3, E4.
      constructor; try assumption; [lia|]. rewrite len_nil. intros Hb. lia.
Qed.
Lemma lor_shift a b n : 0 <= n -> 0 <= a < 2 ^ n -> 0 <= b -> Z.lor a (Z.shiftl b n) = a + b * 2 ^ n.
Proof. intros. rewrite Z.shiftl_mul_pow2 by lia. now apply lor_low_high. Qed.
Lemma lsb_join n l a b : 0 <= a < 2 ^ Z.of_nat n ->
  lsb_bits (n + l) (a + b * 2 ^ Z.of_nat n) = lsb_bits n a ++ lsb_bits l b.
Proof.
  intros Ha. rewrite lsb_bits_app. assert (0 < 2 ^ Z.of_nat n) by (apply pow2_pos; lia). f_equal.
  - rewrite <- (lsb_mod n (a + _)), Z.mod_add, lsb_mod by lia. reflexivity.
  - rewrite Z.div_add, Z.div_small by lia. reflexivity.
Qed.
Lemma join_range n l a b : 0 <= n -> 0 <= l -> 0 <= a < 2 ^ n -> 0 <= b < 2 ^ l -> 0 <= a + b * 2 ^ n < 2 ^ (n + l).
Proof. intros. rewrite Z.pow_add_r by lia. assert (0 < 2 ^ n) by (apply pow2_pos; lia). nia. Qed.

Theorem put_bits_ok b l o : owf o -> ob_nb o < 8 -> 0 <= l <= 16 -> 0 <= b < 2 ^ l ->
  emits o (put_bits b l o) (lsb_bits (Z.to_nat l) b).
Proof.
  intros [W1 W2 W3 W4] H8 Hl Hb. unfold put_bits.
  assert (0 <= Z.shiftl b (ob_nb o) < 4294967296) as SR.
  { rewrite Z.shiftl_mul_pow2 by lia. assert (0 < 2 ^ ob_nb o) by (apply pow2_pos; lia).
    assert (2 ^ ob_nb o <= 2 ^ 7) by (apply Z.pow_le_mono_r; lia). change (2 ^ 7) with 128 in *.
    assert (2 ^ l <= 2 ^ 16) by (apply Z.pow_le_mono_r; lia). change (2 ^ 16) with 65536 in *. nia. }
  rewrite u32_small by assumption. rewrite lor_shift by lia.
  set (o1 := mk_obuf (ob_rev o) (ob_n o) (ob_bb o + b * 2 ^ ob_nb o) (ob_nb o + l)).
  assert (owf o1) as WF1.
  { constructor; cbn [o1 ob_rev ob_n ob_bb ob_nb]; [lia| |assumption|assumption]. apply join_range; lia. }
  destruct (drain_ok 4 o1 WF1) as [E1 E2 E3 E4 E5]; [cbn [o1 ob_nb]; lia|]. cbn [o1 ob_n ob_nb] in E3, E4.
  rewrite len_nil in E4.
  constructor; try assumption.
  - rewrite lsb_len. lia.
  - rewrite lsb_len. intros H. rewrite E5 by (cbn [o1 ob_n ob_nb]; rewrite len_nil; lia).
    rewrite app_nil_r. unfold obits. cbn [o1 ob_rev ob_nb ob_bb].
    rewrite <- app_assoc. f_equal. rewrite Z2Nat.inj_add by lia.
    replace (2 ^ ob_nb o) with (2 ^ Z.of_nat (Z.to_nat (ob_nb o))) by (rewrite Z2Nat.id by lia; reflexivity).
    apply lsb_join. rewrite Z2Nat.id by lia. assumption.
Qed.
Lemma pad_byte_ok o : owf o -> ob_nb o < 8 -> exists pad, emits o (pad_byte o) pad /\ len pad < 8 /\
  (ob_nb o + len pad) mod 8 = 0 /\ (ob_n o < OUT_LIMIT -> obits (pad_byte o) = obits o ++ pad /\ ob_nb (pad_byte o) = 0).
Proof.
  intros W H8. unfold pad_byte. destruct (Z.eqb_spec (ob_nb o) 0) as [E|E].
  - exists []. split; [now apply emits_nil|]. rewrite E. split; [cbn; lia|]. split; [reflexivity|]. now rewrite app_nil_r.
  - pose proof (ow_nb o W). exists (lsb_bits (Z.to_nat (8 - ob_nb o)) 0).
    assert (emits o (put_bits 0 (8 - ob_nb o) o) (lsb_bits (Z.to_nat (8 - ob_nb o)) 0)) as EM.
    { apply put_bits_ok; try assumption; [lia|]. split; [lia|]. apply pow2_pos. lia. }
    split; [exact EM|]. rewrite lsb_len. split; [lia|].
    split; [replace (ob_nb o + Z.of_nat (Z.to_nat (8 - ob_nb o))) with 8 by lia; reflexivity|].
    intros HL. destruct EM as [E1 E2 E3 E4 E5]. rewrite lsb_len in E5. specialize (E5 ltac:(lia)).
    split; [exact E5|].
    apply (f_equal (@len bool)) in E5. unfold obits in E5. rewrite !len_app, !bits_of_len, !lsb_len, !len_rev in E5.
    pose proof (ow_nb _ E1). lia.
Qed.

(** ** The 64-bit buffer *)
Definition fast_ok (x : Z * Z) (bits : list bool) : Prop :=
  0 <= snd x /\ 0 <= fst x < 2 ^ snd x /\ lsb_bits (Z.to_nat (snd x)) (fst x) = bits.
Lemma fast_len x bits : fast_ok x bits -> snd x = len bits.
Proof. intros (H1 & _ & <-). rewrite lsb_len. lia. Qed.
Lemma put_fast_ok b l x bits : fast_ok x bits -> 0 <= l -> snd x + l <= 64 -> 0 <= b < 2 ^ l ->
  fast_ok (put_fast b l x) (bits ++ lsb_bits (Z.to_nat l) b).
Proof.
  intros (H1 & H2 & H3) Hl H64 Hb. unfold put_fast, fast_ok. cbn [fst snd].
  assert (0 <= Z.shiftl b (snd x) < 2 ^ 64) as SR.
  { rewrite Z.shiftl_mul_pow2 by lia. assert (0 < 2 ^ snd x) by (apply pow2_pos; lia).
    assert (2 ^ (snd x + l) <= 2 ^ 64) by (apply Z.pow_le_mono_r; lia). rewrite Z.pow_add_r in H0 by lia. nia. }
  assert (u64 (Z.shiftl b (snd x)) = Z.shiftl b (snd x)) as ->.
  { unfold u64. now apply Z.mod_small. }
  rewrite lor_shift by lia. split; [lia|]. split; [apply join_range; lia|].
  rewrite Z2Nat.inj_add by lia. rewrite <- H3.
  replace (2 ^ snd x) with (2 ^ Z.of_nat (Z.to_nat (snd x))) by (rewrite Z2Nat.id by lia; reflexivity).
  apply lsb_join. rewrite Z2Nat.id by lia. assumption.
Qed.
Lemma low_bytes_length n : forall v, length (low_bytes n v) = n.
Proof. induction n; intros; cbn [low_bytes length]; auto. Qed.
Lemma low_bytes_ok n : forall v, bytes_ok (low_bytes n v).
Proof. induction n; intros; cbn [low_bytes]; constructor; [apply u8_range|apply IHn]. Qed.
Lemma low_bytes_bits n : forall v, bits_of (low_bytes n v) = lsb_bits (8 * n) v.
Proof.
  induction n as [|n IH]; intros v; [reflexivity|]. cbn [low_bytes]. rewrite bits_of_cons, IH, lsb_u8.
  rewrite (lsb_split_byte (8 * S n)) by lia. f_equal. f_equal. lia.
Qed.
(** 1166-1169: the whole bytes leave the 64-bit buffer *)
Lemma fast_flush o bb nb bits : owf o -> fast_ok (bb, nb) (lsb_bits (Z.to_nat (ob_nb o)) (ob_bb o) ++ bits) ->
  let k := Z.shiftr nb 3 in
  let o' := mk_obuf (rev_append (low_bytes (Z.to_nat k) bb) (ob_rev o)) (ob_n o + k)
              (Z.shiftr bb (8 * k)) (Z.land nb 7) in
  owf o' /\ ob_nb o' < 8 /\ obits o' = obits o ++ bits /\ ob_n o <= ob_n o' /\
  8 * ob_n o' + ob_nb o' = 8 * ob_n o + ob_nb o + len bits.
Proof.
  intros [W1 W2 W3 W4] HF k o'. pose proof (fast_len _ _ HF) as FL. destruct HF as (H1 & H2 & H3). cbn [fst snd] in *.
  rewrite len_app, lsb_len in FL. rewrite Z2Nat.id in FL by lia.
  assert (k = nb / 8) as Ek by (unfold k; rewrite Z.shiftr_div_pow2 by lia; reflexivity).
  assert (Z.land nb 7 = nb mod 8) as E7 by (change 7 with (Z.ones 3); rewrite Z.land_ones by lia; reflexivity).
  pose proof (Z.div_mod nb 8 ltac:(lia)) as DM. pose proof (Z.mod_pos_bound nb 8 ltac:(lia)) as MB.
  assert (0 <= k) by (rewrite Ek; apply Z.div_pos; lia).
  split; [|split; [|split; [|split]]]; unfold o'; cbn [ob_rev ob_n ob_bb ob_nb].
  - constructor; cbn [ob_rev ob_n ob_bb ob_nb].
    + lia.
    + rewrite E7. replace (nb mod 8) with (nb - 8 * k) by lia. apply shiftr_range; lia.
    + rewrite rev_append_rev, len_app, len_rev. unfold len at 1. rewrite low_bytes_length. lia.
    + rewrite rev_append_rev. apply bytes_ok_app. split; [apply Forall_rev, low_bytes_ok|assumption].
  - lia.
  - unfold obits. cbn [ob_rev ob_n ob_bb ob_nb]. rewrite rev_append_rev, rev_app_distr, rev_involutive, bits_of_app.
    rewrite <- !app_assoc. f_equal. rewrite <- H3. rewrite low_bytes_bits.
    replace (Z.to_nat nb) with (8 * Z.to_nat k + Z.to_nat (Z.land nb 7))%nat by lia.
    rewrite lsb_bits_app. f_equal. f_equal. rewrite Z.shiftr_div_pow2 by lia. f_equal. f_equal. lia.
  - lia.
  - lia.
Qed.
