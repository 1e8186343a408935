(** Properties C32-C33: the checksum. *)
From Coq Require Import String ZArith List Bool Lia.
From Verif Require Import Base BaseFacts Spec Crc.
Import ListNotations.
Open Scope Z_scope.

Lemma poly_value : crc_poly = 0xEDB88320. Proof. reflexivity. Qed.

Definition zstep (c : Z) : Z := if Z.odd c then Z.lxor (Z.shiftr c 1) 0xEDB88320 else Z.shiftr c 1.
Definition b2z (b : bool) : Z := if b then 1 else 0.
Lemma odd_lxor a b : Z.odd (Z.lxor a b) = xorb (Z.odd a) (Z.odd b).
Proof. rewrite <- !Z.bit0_odd. apply Z.lxor_spec. Qed.
Lemma crc_step_zstep c b : crc_step c b = zstep (Z.lxor c (b2z b)).
Proof.
  unfold crc_step, zstep. rewrite odd_lxor, Z.shiftr_lxor, poly_value.
  assert (Z.shiftr (b2z b) 1 = 0) as -> by (destruct b; reflexivity). rewrite Z.lxor_0_r.
  assert (Z.odd (b2z b) = b) as -> by (destruct b; reflexivity).
  rewrite <- Z.div2_div, Z.div2_spec. reflexivity.
Qed.
Lemma zstep_lxor a b : zstep (Z.lxor a b) = Z.lxor (zstep a) (zstep b).
Proof.
  unfold zstep. rewrite odd_lxor, Z.shiftr_lxor. set (P := 0xEDB88320).
  set (x := Z.shiftr a 1). set (y := Z.shiftr b 1).
  destruct (Z.odd a), (Z.odd b); cbn [xorb].
  - rewrite (Z.lxor_comm y P), Z.lxor_assoc, <- (Z.lxor_assoc P P y), Z.lxor_nilpotent, Z.lxor_0_l. reflexivity.
  - rewrite !Z.lxor_assoc. f_equal. apply Z.lxor_comm.
  - now rewrite !Z.lxor_assoc.
  - reflexivity.
Qed.
Fixpoint zsteps (n : nat) (c : Z) : Z := match n with O => c | S k => zsteps k (zstep c) end.
Lemma zsteps_lxor n : forall a b, zsteps n (Z.lxor a b) = Z.lxor (zsteps n a) (zsteps n b).
Proof. induction n as [|n IH]; intros a b; [reflexivity|]. cbn [zsteps]. now rewrite zstep_lxor, IH. Qed.
Lemma zsteps_add a b c : zsteps (a + b) c = zsteps b (zsteps a c).
Proof. revert c. induction a as [|a IH]; intros c; [reflexivity|]. cbn. apply IH. Qed.

(** Value of message bits, first bit least significant. *)
Fixpoint bits_value (l : list bool) : Z :=
  match l with [] => 0 | b :: t => Z.lxor (b2z b) (Z.shiftl (bits_value t) 1) end.
Lemma zstep_shiftl x : zstep (Z.shiftl x 1) = x.
Proof.
  unfold zstep. assert (Z.odd (Z.shiftl x 1) = false) as ->.
  { rewrite Z.shiftl_mul_pow2 by lia. change (2 ^ 1) with 2. rewrite Z.mul_comm, Z.odd_mul. reflexivity. }
  rewrite Z.shiftr_shiftl_l by lia. apply Z.shiftl_0_r.
Qed.
Lemma run_bits l : forall c, fold_left crc_step l c = zsteps (length l) (Z.lxor c (bits_value l)).
Proof.
  induction l as [|b l IH]; intros c; cbn [fold_left length zsteps bits_value]; [now rewrite Z.lxor_0_r|].
  rewrite IH, crc_step_zstep. f_equal.
  rewrite <- Z.lxor_assoc, (zstep_lxor (Z.lxor c (b2z b))), zstep_shiftl. reflexivity.
Qed.

(** Table lookups. *)
Lemma zsteps_shift n : forall x, zsteps n (Z.shiftl x (Z.of_nat n)) = x.
Proof.
  induction n as [|n IH]; intros x; [apply Z.shiftl_0_r|]. cbn [zsteps].
  replace (Z.shiftl x (Z.of_nat (S n))) with (Z.shiftl (Z.shiftl x (Z.of_nat n)) 1).
  - now rewrite zstep_shiftl.
  - rewrite Z.shiftl_shiftl by lia. f_equal. lia.
Qed.
Lemma split_low c n : 0 <= n -> c = Z.lxor (Z.shiftl (Z.shiftr c n) n) (Z.land c (Z.ones n)).
Proof.
  intros Hn. apply Z.bits_inj'. intros i Hi. rewrite Z.lxor_spec, Z.land_spec.
  rewrite Z.testbit_ones_nonneg by lia.
  destruct (i <? n) eqn:E.
  - rewrite Z.shiftl_spec_low by lia. now rewrite andb_true_r, xorb_false_l.
  - rewrite Z.shiftl_spec, Z.shiftr_spec by lia. rewrite andb_false_r, xorb_false_r. f_equal. lia.
Qed.
Lemma small_lxor a b k : 0 <= k -> 0 <= a < 2 ^ k -> 0 <= b < 2 ^ k -> 0 <= Z.lxor a b < 2 ^ k.
Proof.
  intros Hk Ha Hb. split; [apply Z.lxor_nonneg; lia|].
  destruct (Z.eq_dec (Z.lxor a b) 0) as [->|Hz]; [lia|].
  assert (0 <= Z.lxor a b) by (apply Z.lxor_nonneg; lia).
  apply Z.log2_lt_pow2; [lia|]. eapply Z.le_lt_trans; [apply Z.log2_lxor; lia|].
  assert (forall z, 0 <= z < 2 ^ k -> z = 0 \/ Z.log2 z < k) as HL.
  { intros z Hz2. destruct (Z.eq_dec z 0); [auto|]. right. apply Z.log2_lt_pow2; lia. }
  destruct (HL a Ha) as [->|?]; destruct (HL b Hb) as [->|?]; try lia.
  - cbn in Hz. congruence.
  - cbn [Z.log2] in *. destruct (Z.eq_dec k 0); [subst; cbn in *; assert (b = 0) by lia; subst; cbn in Hz; congruence|]. lia.
  - cbn [Z.log2] in *. destruct (Z.eq_dec k 0); [subst; cbn in *; assert (a = 0) by lia; subst; cbn in Hz; congruence|]. lia.
Qed.
Lemma crc_nibble_steps c n : 0 <= n < 16 -> crc_nibble c n = zsteps 4 (Z.lxor c n).
Proof.
  intros Hn. unfold crc_nibble.
  rewrite (split_low c 4) at 3 by lia. change (Z.ones 4) with 15.
  rewrite Z.lxor_assoc, zsteps_lxor.
  change 4 with (Z.of_nat 4) at 2. rewrite zsteps_shift. f_equal.
  assert (0 <= Z.lxor (Z.land c 15) n < 16) as HX.
  { apply (small_lxor _ _ 4); [lia| |lia]. change 15 with (Z.ones 4). rewrite Z.land_ones by lia.
    apply Z.mod_pos_bound. lia. }
  set (x := Z.lxor (Z.land c 15) n) in *. clearbody x.
  assert (x = 0 \/ x = 1 \/ x = 2 \/ x = 3 \/ x = 4 \/ x = 5 \/ x = 6 \/ x = 7 \/ x = 8 \/ x = 9 \/
          x = 10 \/ x = 11 \/ x = 12 \/ x = 13 \/ x = 14 \/ x = 15) as HC by lia.
  repeat (destruct HC as [->|HC]; [reflexivity|]). subst. reflexivity.
Qed.
Lemma shiftl_small_steps k x : zsteps k (Z.shiftl x (Z.of_nat k)) = x.
Proof. apply zsteps_shift. Qed.
Lemma crc_byte_steps c b : is_byte b -> crc_byte c b = zsteps 8 (Z.lxor c b).
Proof.
  unfold is_byte. intros Hb. unfold crc_byte.
  assert (0 <= Z.land b 15 < 16) as H1.
  { change 15 with (Z.ones 4). rewrite Z.land_ones by lia. apply Z.mod_pos_bound. lia. }
  assert (0 <= Z.shiftr b 4 < 16) as H2.
  { rewrite Z.shiftr_div_pow2 by lia. change (2 ^ 4) with 16. split; [apply Z.div_pos; lia|apply Z.div_lt_upper_bound; lia]. }
  rewrite (crc_nibble_steps c) by exact H1. rewrite crc_nibble_steps by exact H2.
  change 8%nat with (4 + 4)%nat. rewrite zsteps_add. f_equal.
  rewrite (split_low b 4) at 3 by lia. change (Z.ones 4) with 15.
  rewrite (Z.lxor_comm (Z.shiftl _ 4)), <- Z.lxor_assoc.
  rewrite (zsteps_lxor 4 (Z.lxor c (Z.land b 15))). f_equal.
  symmetry. apply (zsteps_shift 4).
Qed.
Lemma byte_bits_value b : is_byte b -> bits_value (byte_bits b) = b.
Proof.
  unfold is_byte. intros Hb. apply Z.bits_inj'. intros i Hi. unfold byte_bits. cbn [map seq bits_value].
  assert (forall x y j, 0 <= j -> Z.testbit (Z.lxor (b2z x) (Z.shiftl y 1)) j = if j =? 0 then x else Z.testbit y (j - 1)) as H.
  { intros x y j Hj. rewrite Z.lxor_spec. destruct (j =? 0) eqn:E.
    - assert (j = 0) as -> by lia. rewrite Z.shiftl_spec_low by lia. destruct x; reflexivity.
    - rewrite Z.shiftl_spec by lia. assert (Z.testbit (b2z x) j = false) as ->; [|apply xorb_false_l].
      destruct x; cbn [b2z]; [|apply Z.testbit_0_l]. apply Z.bits_above_log2; cbn; lia. }
  destruct (Z_lt_dec i 8).
  - assert (i = 0 \/ i = 1 \/ i = 2 \/ i = 3 \/ i = 4 \/ i = 5 \/ i = 6 \/ i = 7) as HC by lia.
    repeat (destruct HC as [->|HC]; [repeat (rewrite H by lia; cbn [Z.eqb Z.sub Z.add Z.opp Z.pos_sub Pos.pred_double]); reflexivity|]).
    subst. repeat (rewrite H by lia; cbn [Z.eqb Z.sub Z.add Z.opp Z.pos_sub Pos.pred_double]); reflexivity.
  - repeat (rewrite H by lia; match goal with |- context [?a =? 0] => destruct (a =? 0) eqn:?E; [lia|clear E] end).
    rewrite Z.testbit_0_l. symmetry. destruct (Z.eq_dec b 0) as [->|]; [apply Z.testbit_0_l|].
    apply Z.bits_above_log2; [lia|]. apply Z.log2_lt_pow2; [lia|]. apply Z.lt_le_trans with (2 ^ 8); [lia|].
    apply Z.pow_le_mono_r; lia.
Qed.
Lemma byte_bits_length b : length (byte_bits b) = 8%nat. Proof. reflexivity. Qed.

Lemma crc_bytes_run l : forall c, bytes_ok l -> fold_left crc_byte l c = fold_left crc_step (message_bits l) c.
Proof.
  induction l as [|b l IH]; intros c H; [reflexivity|]. inversion H; subst.
  cbn [fold_left message_bits flat_map]. rewrite fold_left_app, IH by auto. f_equal.
  rewrite run_bits, byte_bits_value by auto. now apply crc_byte_steps.
Qed.

(** *** C32 *)
Theorem C32_crc_is_standard : forall l, bytes_ok l -> len l < 2 ^ 32 ->
  npy_crc32 l = crc32_standard l /\ 0 <= npy_crc32 l < 2 ^ 32.
Proof.
  intros l Hl HL. unfold npy_crc32, mz_crc32, crc32_standard, u32. pose proof (len_nonneg _ l).
  rewrite (Z.mod_small (len l)) by lia. rewrite ztake_all by lia. rewrite crc_bytes_run by auto.
  split; [reflexivity|]. apply small_lxor; [lia| |lia].
  change (Z.lxor (0 mod 4294967296) 4294967295) with 0xFFFFFFFF.
  assert (forall b c, 0 <= c < 2 ^ 32 -> 0 <= crc_step c b < 2 ^ 32) as HS.
  { intros b c Hc. unfold crc_step. assert (0 <= c / 2 < 2 ^ 32) by (split; [apply Z.div_pos; lia|apply Z.div_lt_upper_bound; lia]).
    destruct (xorb (Z.odd c) b); [|assumption]. apply small_lxor; [lia|assumption|]. rewrite poly_value. lia. }
  assert (forall bs c, 0 <= c < 2 ^ 32 -> 0 <= fold_left crc_step bs c < 2 ^ 32) as HF.
  { induction bs as [|b bs IH]; intros c Hc; [exact Hc|]. cbn [fold_left]. apply IH. now apply HS. }
  apply HF. lia.
Qed.
Print Assumptions C32_crc_is_standard.
(** Longer strings: the length is taken modulo 2^32, so all that is covered by the checksum
    of a string of 4 GiB or more is a beginning of it - of exactly 4 GiB, nothing. *)
Theorem C32_long_strings : forall l, bytes_ok l ->
  npy_crc32 l = crc32_standard (ztake (len l mod 2 ^ 32) l).
Proof.
  intros l Hl. pose proof (Z.mod_pos_bound (len l) (2 ^ 32) ltac:(lia)) as HM. pose proof (len_nonneg _ l).
  assert (bytes_ok (ztake (len l mod 2 ^ 32) l)) as HB.
  { rewrite <- (ztake_zdrop _ (len l mod 2 ^ 32) l) in Hl. now apply bytes_ok_app in Hl. }
  assert (len (ztake (len l mod 2 ^ 32) l) = len l mod 2 ^ 32) as HL by (rewrite len_ztake; pose proof (Z.mod_le (len l) (2 ^ 32)); lia).
  destruct (C32_crc_is_standard _ HB ltac:(rewrite HL; lia)) as [<- _]. unfold npy_crc32, u32. change 4294967296 with (2 ^ 32).
  rewrite HL, Z.mod_mod by lia. rewrite (ztake_all _ (len l mod 2 ^ 32) (ztake _ l)) by lia. reflexivity.
Qed.
Print Assumptions C32_long_strings.
Theorem C32_four_gigabytes : forall l, bytes_ok l -> len l = 2 ^ 32 -> npy_crc32 l = 0.
Proof. intros l Hl HL. rewrite C32_long_strings by assumption. rewrite HL, Z_mod_same_full, ztake_0 by lia. reflexivity. Qed.
Print Assumptions C32_four_gigabytes.
(** The published check value of CRC-32. *)
Example C32_case : crc32_standard (str "123456789") = 0xCBF43926 /\ npy_crc32 (str "123456789") = 0xCBF43926.
Proof. split; vm_compute; reflexivity. Qed.

(** *** C33 *)
Lemma zstep_range c : 0 <= c < 2 ^ 32 -> 0 <= zstep c < 2 ^ 32.
Proof.
  intros Hc. unfold zstep. rewrite Z.shiftr_div_pow2 by lia. change (2 ^ 1) with 2.
  assert (0 <= c / 2 < 2 ^ 32) by (split; [apply Z.div_pos; lia|apply Z.div_lt_upper_bound; lia]).
  destruct (Z.odd c); [|assumption]. apply small_lxor; lia.
Qed.
Lemma zstep_nonzero c : 0 < c < 2 ^ 32 -> 0 < zstep c < 2 ^ 32.
Proof.
  intros Hc. pose proof (zstep_range c ltac:(lia)). enough (zstep c <> 0) by lia.
  unfold zstep. intros HZ. rewrite Z.shiftr_div_pow2 in HZ by lia. change (2 ^ 1) with 2 in HZ.
  destruct (Z.odd c) eqn:E.
  - apply Z.lxor_eq in HZ. assert (c / 2 < 2 ^ 31) by (apply Z.div_lt_upper_bound; lia). lia.
  - assert (Z.even c = true) as HE by (now rewrite <- Z.negb_odd, E).
    apply Z.even_spec in HE as [k ->]. rewrite Z.mul_comm, Z.div_mul in HZ by lia. lia.
Qed.
Lemma zsteps_nonzero n : forall c, 0 < c < 2 ^ 32 -> 0 < zsteps n c < 2 ^ 32.
Proof. induction n as [|n IH]; intros c Hc; [exact Hc|]. cbn. apply IH. now apply zstep_nonzero. Qed.
Lemma bits_value_cons b l : bits_value (b :: l) = b2z b + 2 * bits_value l.
Proof.
  cbn [bits_value]. rewrite <- Z.add_nocarry_lxor.
  - rewrite Z.shiftl_mul_pow2 by lia. change (2 ^ 1) with 2. lia.
  - apply Z.bits_inj'. intros i Hi. rewrite Z.land_spec, Z.testbit_0_l.
    destruct (Z.eq_dec i 0) as [->|]; [rewrite (Z.shiftl_spec_low _ 1 0) by lia; apply andb_false_r|].
    assert (Z.testbit (b2z b) i = false) as ->; [|reflexivity].
    destruct b; cbn [b2z]; [|apply Z.testbit_0_l]. apply Z.bits_above_log2; cbn; lia.
Qed.
Lemma bits_value_range l : 0 <= bits_value l < 2 ^ len l.
Proof.
  induction l as [|b l IH]; [cbn; lia|]. rewrite bits_value_cons.
  replace (len (b :: l)) with (Z.succ (len l)) by (unfold len; cbn [length]; lia).
  rewrite Z.pow_succ_r by apply len_nonneg. destruct b; cbn [b2z]; lia.
Qed.
Lemma bits_value_inj l : forall l', length l = length l' -> bits_value l = bits_value l' -> l = l'.
Proof.
  induction l as [|b l IH]; intros [|b' l'] HL H; try discriminate; [reflexivity|].
  rewrite !bits_value_cons in H. injection HL as HL.
  assert (b = b' /\ bits_value l = bits_value l') as [-> HV] by (destruct b, b'; cbn [b2z] in H; split; try reflexivity; lia).
  f_equal. now apply IH.
Qed.
Theorem C33_crc_catches_bursts : forall a b before w w' after,
  bytes_ok a -> bytes_ok b -> len a < 2 ^ 32 -> len b < 2 ^ 32 ->
  message_bits a = before ++ w ++ after -> message_bits b = before ++ w' ++ after ->
  length w = length w' -> (length w <= 32)%nat -> w <> w' ->
  npy_crc32 a <> npy_crc32 b.
Proof.
  intros a b pre w w' post Ha Hb La Lb Ma Mb HL H32 Hne HE.
  destruct (C32_crc_is_standard a Ha La) as [Ea _]. destruct (C32_crc_is_standard b Hb Lb) as [Eb _].
  rewrite Ea, Eb in HE. unfold crc32_standard in HE. rewrite Ma, Mb in HE. rewrite !fold_left_app in HE.
  set (c := fold_left crc_step pre 0xFFFFFFFF) in HE. clearbody c.
  assert (forall x y m, Z.lxor x m = Z.lxor y m -> x = y) as HX.
  { intros x y m H. apply (f_equal (fun z => Z.lxor z m)) in H. rewrite !Z.lxor_assoc, Z.lxor_nilpotent, !Z.lxor_0_r in H. exact H. }
  apply HX in HE. rewrite !run_bits in HE. rewrite <- HL in HE.
  set (n := length w) in *. set (k := length post) in *.
  assert (zsteps k (zsteps n (Z.lxor (bits_value w) (bits_value w'))) = 0) as HZ.
  { replace (Z.lxor (bits_value w) (bits_value w')) with (Z.lxor (Z.lxor c (bits_value w)) (Z.lxor c (bits_value w'))).
    2:{ rewrite (Z.lxor_comm c (bits_value w)), <- Z.lxor_assoc, (Z.lxor_assoc (bits_value w) c c), Z.lxor_nilpotent, Z.lxor_0_r. reflexivity. }
    rewrite !zsteps_lxor in *. apply HX in HE. rewrite HE. apply Z.lxor_nilpotent. }
  pose proof (bits_value_range w) as R1. pose proof (bits_value_range w') as R2.
  assert (len w' = len w) as HL' by (unfold len; lia). rewrite HL' in R2.
  assert (2 ^ len w <= 2 ^ 32) by (apply Z.pow_le_mono_r; unfold len; lia).
  pose proof (small_lxor (bits_value w) (bits_value w') 32 ltac:(lia) ltac:(lia) ltac:(lia)) as RX.
  assert (Z.lxor (bits_value w) (bits_value w') <> 0) as HN.
  { intros H0. apply Z.lxor_eq in H0. apply Hne. now apply bits_value_inj. }
  assert (0 < Z.lxor (bits_value w) (bits_value w') < 2 ^ 32) as HP by lia.
  pose proof (zsteps_nonzero k _ (zsteps_nonzero n _ HP)). lia.
Qed.
Print Assumptions C33_crc_catches_bursts.
(** In particular any change confined to four consecutive bytes. *)
Theorem C33_crc_catches_four_bytes : forall before x y after,
  bytes_ok (before ++ x ++ after) -> bytes_ok y -> length x = length y -> (length x <= 4)%nat -> x <> y ->
  len (before ++ x ++ after) < 2 ^ 32 ->
  npy_crc32 (before ++ x ++ after) <> npy_crc32 (before ++ y ++ after).
Proof.
  intros pre x y post Ha Hy HL H4 Hne HN.
  apply bytes_ok_app in Ha as [Hp Hx]. apply bytes_ok_app in Hx as [Hx Hq].
  assert (forall l, length (message_bits l) = (8 * length l)%nat) as HM.
  { induction l as [|b l IH]; [reflexivity|]. cbn [message_bits flat_map]. rewrite app_length, byte_bits_length.
    unfold message_bits in IH. rewrite IH. cbn. lia. }
  apply (C33_crc_catches_bursts _ _ (message_bits pre) (message_bits x) (message_bits y) (message_bits post)).
  - apply bytes_ok_app. split; [exact Hp|]. now apply bytes_ok_app.
  - apply bytes_ok_app. split; [exact Hp|]. now apply bytes_ok_app.
  - exact HN.
  - rewrite !len_app in *. unfold len in *. lia.
  - unfold message_bits. now rewrite !flat_map_app.
  - unfold message_bits. now rewrite !flat_map_app.
  - rewrite !HM. lia.
  - rewrite HM. lia.
  - intros HE. apply Hne. clear -HE HL Hx Hy.
    revert y HL Hy HE. induction Hx as [|a x Ha Hx IH]; intros [|b y] HL Hy HE; try discriminate; [reflexivity|].
    inversion Hy; subst. cbn [message_bits flat_map] in HE.
    assert (byte_bits a = byte_bits b /\ message_bits x = message_bits y) as [HB1 HB2].
    { unfold byte_bits in HE |- *. cbn [map seq app] in HE |- *. injection HE. intros. split; [congruence|assumption]. }
    f_equal; [|apply IH; auto]. rewrite <- (byte_bits_value a), <- (byte_bits_value b) by auto. now rewrite HB1.
Qed.
Print Assumptions C33_crc_catches_four_bytes.
(** 33 bits can collide: the bound is sharp. *)
Example C33_sharp : npy_crc32 [0; 0; 0; 0; 0] = npy_crc32 [0x41; 0x06; 0x71; 0xDB; 0x01].
Proof. vm_compute. reflexivity. Qed.
Example C33_case : bytes_ok (str "abcdefgh") /\
  npy_crc32 (str "abcdefgh") <> npy_crc32 (str "abcDEFgh").
Proof. split; [apply str_ok|vm_compute; discriminate]. Qed.
