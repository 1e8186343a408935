(** Facts about archives. *)
From Coq Require Import String ZArith List Bool Lia.
From Verif Require Import Base Stream BaseFacts Dtype Values Spec Header Tensor Npy Crc Npz.
Import ListNotations.
Open Scope Z_scope.
Local Open Scope monad_scope.

(** [m] consumes exactly [b], on any good stream, and returns [a]. *)
Definition reads {A} (m : IO A) (b : bytes) (a : A) : Prop :=
  forall s tail, good s = true -> rest s = b ++ tail -> m s = (Ok a, set_rest s tail).
Lemma reads_bind {A B} (m : IO A) (k : A -> IO B) b1 b2 a c :
  reads m b1 a -> reads (k a) b2 c -> reads (bind m k) (b1 ++ b2) c.
Proof.
  intros H1 H2 s tail G R. rewrite <- app_assoc in R. unfold bind. rewrite (H1 s _ G R).
  rewrite (H2 (set_rest s (b2 ++ tail)) tail G eq_refl). now rewrite set_rest_set_rest.
Qed.
Lemma reads_ret {A} (a : A) : reads (ret a) [] a.
Proof. intros s tail G R. cbn in R. unfold ret. now rewrite <- R, set_rest_id. Qed.
Lemma reads_eq {A} (m : IO A) b b' a a' : reads m b a -> b = b' -> a = a' -> reads m b' a'.
Proof. now intros H <- <-. Qed.
Lemma reads_bind0 {A B} (m : IO A) (k : A -> IO B) b a c :
  reads m [] a -> reads (k a) b c -> reads (bind m k) b c.
Proof. apply reads_bind. Qed.

(** *** Integers *)
Lemma put_le_bytes n : forall x, put_le n x = digits256 n x.
Proof.
  assert (forall n x, put_le n x = map (fun i => (x / 256 ^ Z.of_nat i) mod 256) (seq 0 n)) as H; [|intros; apply H].
  clear n. induction n as [|n IH]; intros x; [reflexivity|].
  cbn [put_le seq map]. f_equal.
  - change 0xFF with (Z.ones 8). rewrite Z.land_ones by lia. change (2 ^ 8) with 256.
    change (256 ^ Z.of_nat 0) with 1. now rewrite Z.div_1_r.
  - rewrite IH. rewrite <- seq_shift, map_map. apply map_ext. intros i.
    rewrite Z.shiftr_div_pow2 by lia. change (2 ^ 8) with 256.
    rewrite Nat2Z.inj_succ, Z.pow_succ_r by lia. rewrite Z.div_div by lia. reflexivity.
Qed.
Lemma put_le_length n x : length (put_le n x) = n.
Proof. revert x. induction n as [|n IH]; intros x; cbn; [reflexivity|]. now rewrite IH. Qed.

Lemma lor_add_shift acc x k : 0 <= k -> 0 <= acc < 2 ^ k -> Z.lor acc (Z.shiftl x k) = acc + x * 2 ^ k.
Proof.
  intros Hk Ha. rewrite Z.shiftl_mul_pow2 by lia. symmetry. rewrite Z.add_nocarry_lxor.
  - apply Z.bits_inj'. intros i Hi. rewrite Z.lxor_spec, Z.lor_spec.
    rewrite <- Z.shiftl_mul_pow2 by lia.
    destruct (i <? k) eqn:E.
    + rewrite (Z.shiftl_spec_low x k i) by lia. now rewrite xorb_false_r, orb_false_r.
    + assert (Z.testbit acc i = false) as ->; [|now destruct (Z.testbit _ i)].
      destruct (Z.eq_dec acc 0) as [->|]; [apply Z.testbit_0_l|].
      apply Z.bits_above_log2; [lia|]. apply Z.lt_le_trans with k; [|lia]. apply Z.log2_lt_pow2; lia.
  - apply Z.bits_inj'. intros i Hi. rewrite Z.land_spec, Z.testbit_0_l. rewrite <- Z.shiftl_mul_pow2 by lia.
    destruct (i <? k) eqn:E.
    + rewrite (Z.shiftl_spec_low x k i) by lia. apply andb_false_r.
    + assert (Z.testbit acc i = false) as ->; [|reflexivity].
      destruct (Z.eq_dec acc 0) as [->|]; [apply Z.testbit_0_l|].
      apply Z.bits_above_log2; [lia|]. apply Z.lt_le_trans with k; [|lia]. apply Z.log2_lt_pow2; lia.
Qed.

Lemma read_le_put w n : forall x shift acc s tail, 0 <= shift -> shift + 8 * Z.of_nat n <= w ->
  0 <= acc < 2 ^ shift -> 0 <= x < 256 ^ Z.of_nat n ->
  good s = true -> rest s = put_le n x ++ tail ->
  read_le w n shift acc s = (acc + x * 2 ^ shift, set_rest s tail).
Proof.
  induction n as [|n IH]; intros x shift acc s tail Hs Hw Ha Hx G R.
  - cbn in R, Hx |- *. rewrite <- R, set_rest_id. f_equal. assert (x = 0) as -> by lia. lia.
  - cbn [read_le]. cbn [put_le app] in R. rewrite (sget_cons s _ _ G R).
    change 0xFF with (Z.ones 8). rewrite Z.land_ones by lia. change (2 ^ 8) with 256.
    pose proof (Z.mod_pos_bound x 256 ltac:(lia)) as HB. set (b := x mod 256) in *.
    assert (0 < 2 ^ shift) by (apply Z.pow_pos_nonneg; lia).
    assert (256 * 2 ^ shift <= 2 ^ w) as HP.
    { change 256 with (2 ^ 8). rewrite <- Z.pow_add_r by lia. apply Z.pow_le_mono_r; lia. }
    rewrite (Z.mod_small b) by (split; [lia|]; nia).
    rewrite Z.mod_small by (rewrite Z.shiftl_mul_pow2 by lia; nia).
    rewrite lor_add_shift by lia.
    rewrite (IH (Z.shiftr x 8) (shift + 8) (acc + b * 2 ^ shift) _ tail); cbn [rest set_rest]; auto; try lia.
    + rewrite set_rest_set_rest. f_equal. rewrite Z.shiftr_div_pow2 by lia. change (2 ^ 8) with 256.
      rewrite Z.pow_add_r by lia. change (2 ^ 8) with 256.
      pose proof (Z.div_mod x 256 ltac:(lia)). fold b in H0. nia.
    + rewrite Z.pow_add_r by lia. change (2 ^ 8) with 256. nia.
    + rewrite Z.shiftr_div_pow2 by lia. change (2 ^ 8) with 256.
      rewrite Nat2Z.inj_succ, Z.pow_succ_r in Hx by lia. split; [apply Z.div_pos; lia|apply Z.div_lt_upper_bound; lia].
Qed.

Lemma write16_put x : 0 <= x < 65536 -> write16 x = put_le 2 x.
Proof.
  intros H. unfold write16. cbn [put_le]. do 2 f_equal.
  change 0xFF with (Z.ones 8). rewrite Z.land_ones by lia. symmetry. apply Z.mod_small.
  rewrite Z.shiftr_div_pow2 by lia. split; [apply Z.div_pos; lia|apply Z.div_lt_upper_bound; lia].
Qed.
Lemma read16_write s x tail : 0 <= x < 65536 -> good s = true -> rest s = write16 x ++ tail ->
  read16 s = (x, set_rest s tail).
Proof.
  intros H G R. unfold read16. unfold write16 in R. cbn [app] in R.
  rewrite (sget_cons s _ _ G R). rewrite (sget_cons (set_rest s _) _ _ G eq_refl).
  rewrite set_rest_set_rest. f_equal.
  change 0xFF with (Z.ones 8). rewrite Z.land_ones by lia. change (2 ^ 8) with 256.
  rewrite Z.shiftr_div_pow2 by lia. change (2 ^ 8) with 256.
  pose proof (Z.mod_pos_bound x 256 ltac:(lia)). pose proof (Z.div_pos x 256 ltac:(lia) ltac:(lia)).
  assert (x / 256 < 256) by (apply Z.div_lt_upper_bound; lia).
  unfold u16. rewrite (Z.mod_small (x mod 256)), (Z.mod_small (x / 256)) by lia.
  rewrite lor_add_shift by lia. pose proof (Z.div_mod x 256 ltac:(lia)). rewrite Z.mod_small by lia. lia.
Qed.
Lemma reads16 x : 0 <= x < 65536 -> reads rd16 (write16 x) x.
Proof. intros H s tail G R. unfold rd16, of_fun. now rewrite (read16_write s x tail H G R). Qed.
Lemma reads32 x : 0 <= x < 2 ^ 32 -> reads rd32 (write32u x) x.
Proof.
  intros H s tail G R. unfold rd32, of_fun, read32. rewrite (read_le_put 32 4 x 0 0 s tail); auto; try lia.
  now rewrite Z.add_0_l, Z.mul_1_r.
Qed.
Lemma reads64 x : 0 <= x < 2 ^ 64 -> reads rd64 (write64u x) x.
Proof.
  intros H s tail G R. unfold rd64, of_fun, read64. rewrite (read_le_put 64 8 x 0 0 s tail); auto; try lia.
  now rewrite Z.add_0_l, Z.mul_1_r.
Qed.
(** A 32-bit field that is skipped or read as raw bytes. *)
Lemma reads32_bytes a b c d : is_byte a -> is_byte b -> is_byte c -> is_byte d ->
  reads rd32 [a; b; c; d] (a + 256 * b + 65536 * c + 16777216 * d).
Proof.
  unfold is_byte. intros. eapply reads_eq; [apply (reads32 (a + 256 * b + 65536 * c + 16777216 * d)); lia| |reflexivity].
  unfold write32u. rewrite put_le_bytes. unfold digits256. cbn [seq map].
  change (256 ^ Z.of_nat 0) with 1. change (256 ^ Z.of_nat 1) with 256.
  change (256 ^ Z.of_nat 2) with 65536. change (256 ^ Z.of_nat 3) with 16777216.
  rewrite Z.div_1_r.
  f_equal; [|f_equal; [|f_equal; [|f_equal]]].
  - replace (a + 256 * b + 65536 * c + 16777216 * d) with (a + (b + 256 * c + 65536 * d) * 256) by lia.
    rewrite Z.mod_add by lia. apply Z.mod_small; lia.
  - replace (a + 256 * b + 65536 * c + 16777216 * d) with (a + (b + 256 * c + 65536 * d) * 256) by lia.
    rewrite Z.div_add, Z.div_small by lia. rewrite Z.add_0_l.
    replace (b + 256 * c + 65536 * d) with (b + (c + 256 * d) * 256) by lia. rewrite Z.mod_add by lia. apply Z.mod_small; lia.
  - replace (a + 256 * b + 65536 * c + 16777216 * d) with (a + 256 * b + (c + 256 * d) * 65536) by lia.
    rewrite Z.div_add, Z.div_small by lia. rewrite Z.add_0_l. replace (c + 256 * d) with (c + d * 256) by lia.
    rewrite Z.mod_add by lia. apply Z.mod_small; lia.
  - replace (a + 256 * b + 65536 * c + 16777216 * d) with (a + 256 * b + 65536 * c + d * 16777216) by lia.
    rewrite Z.div_add, Z.div_small by lia. rewrite Z.add_0_l. apply Z.mod_small; lia.
Qed.
Lemma reads_name n : reads (read_name (len n)) n n.
Proof.
  intros s tail G R. unfold read_name. rewrite (sread_app s n tail G R). rewrite Z.sub_diag.
  cbn [zrepeat Z.to_nat repeat]. now rewrite app_nil_r.
Qed.
Lemma reads_sig x : len x = 4 -> reads (assert_sig x) x tt.
Proof.
  intros HL s tail G R. unfold assert_sig. rewrite <- HL. rewrite (sread_app s x tail G R).
  rewrite HL. rewrite beq_refl. reflexivity.
Qed.

(** *** Headers *)
(** Entries as write_file makes them: 32-bit sizes and offset, 16-bit method and
    name length. *)
Definition entry_ok (e : file_entry) : Prop :=
  0 <= f_crc e < 2 ^ 32 /\ 0 <= f_csize e < 2 ^ 32 /\ 0 <= f_usize e < 2 ^ 32 /\
  0 <= f_method e < 65536 /\ 0 <= f_offset e < 2 ^ 32 /\ len (f_name e) < 65536.

(** What a 32-bit size field holds. *)
Definition shown (x : Z) : Z := if x >? ZIP64_LIMIT then ZIP64_PLACEHOLDER else x.
Lemma write32_shown x : 0 <= x < 2 ^ 32 -> write32 x = write32u (shown x).
Proof. intros H. unfold write32, shown. destruct (x >? ZIP64_LIMIT); [reflexivity|]. unfold u32. now rewrite Z.mod_small by lia. Qed.
Lemma shown_range x : 0 <= x < 2 ^ 32 -> 0 <= shown x < 2 ^ 32.
Proof. unfold shown, ZIP64_PLACEHOLDER. destruct (x >? ZIP64_LIMIT); lia. Qed.
Lemma shown_placeholder x : 0 <= x < 2 ^ 32 -> (shown x =? ZIP64_PLACEHOLDER) = (x >? ZIP64_LIMIT).
Proof.
  unfold shown, ZIP64_PLACEHOLDER, ZIP64_LIMIT. intros H. destruct (x >? 2415919103) eqn:E; [reflexivity|].
  apply Z.eqb_neq. lia.
Qed.

Lemma reads_shared e : entry_ok e ->
  reads read_shared_header (write_shared_header e)
    (f_method e, f_crc e, shown (f_csize e), shown (f_usize e), len (f_name e)).
Proof.
  intros (H1 & H2 & H3 & H4 & H5 & H6). pose proof (len_nonneg _ (f_name e)).
  unfold read_shared_header, write_shared_header.
  rewrite (write32_shown (f_csize e)), (write32_shown (f_usize e)) by lia.
  unfold u16. rewrite (Z.mod_small (len (f_name e))) by lia.
  eapply reads_bind; [apply reads16; lia|].
  eapply reads_bind; [apply reads16; lia|].
  eapply reads_bind; [unfold TIME; apply reads32_bytes; unfold is_byte; lia|].
  eapply reads_bind; [apply reads32; lia|].
  eapply reads_bind; [apply reads32; apply shown_range; lia|].
  eapply reads_bind; [apply reads32; apply shown_range; lia|].
  rewrite <- (app_nil_r (write16 (len (f_name e)))).
  eapply reads_bind; [apply reads16; lia|]. apply reads_ret.
Qed.

Lemma reads_opt64 (c : bool) x y : 0 <= x < 2 ^ 64 ->
  reads (if c then u <- rd64 ;; ret (u, 8) else ret (y, 0))
        (if c then write64u x else []) (if c then (x, 8) else (y, 0)).
Proof.
  intros H. destruct c; [|apply reads_ret].
  rewrite <- (app_nil_r (write64u x)). eapply reads_bind; [now apply reads64|apply reads_ret].
Qed.

Lemma reads_zip64 e io : entry_ok e -> 0 < determine_extra_length e io ->
  reads (read_zip64_extra (mk_entry (f_name e) (f_crc e) (shown (f_csize e)) (shown (f_usize e)) (f_method e)
                             (if io then shown (f_offset e) else 0)) io)
        (write_zip64_extra e io)
        (mk_entry (f_name e) (f_crc e) (f_csize e) (f_usize e) (f_method e) (if io then f_offset e else 0)).
Proof.
  intros (H1 & H2 & H3 & H4 & H5 & H6) HX. unfold read_zip64_extra, write_zip64_extra.
  cbn [f_name f_crc f_csize f_usize f_method f_offset].
  eapply reads_bind; [apply reads16; unfold ZIP64_TAG; lia|]. cbn [Z.eqb negb].
  rewrite Z.eqb_refl. cbn [negb].
  set (bu := f_usize e >? ZIP64_LIMIT) in *. set (bc := f_csize e >? ZIP64_LIMIT) in *.
  set (bo := io && (f_offset e >? ZIP64_LIMIT)) in *.
  assert (HL : len ((if bu then [f_usize e] else []) ++ (if bc then [f_csize e] else []) ++ (if bo then [f_offset e] else [])) * 8
    = (if bu then 8 else 0) + (if bc then 8 else 0) + (if bo then 8 else 0)).
  { destruct bu, bc, bo; reflexivity. }
  rewrite HL. set (total := (if bu then 8 else 0) + _ + _).
  assert (0 <= total <= 24) as HT by (unfold total; destruct bu, bc, bo; lia).
  unfold u16. rewrite (Z.mod_small total) by lia.
  eapply reads_bind; [apply reads16; lia|].
  rewrite !flat_map_app.
  rewrite (shown_placeholder (f_usize e)), (shown_placeholder (f_csize e)) by lia. fold bu bc.
  assert (forall (b : bool) x, flat_map write64u (if b then [x] else []) = if b then write64u x else []) as HF
    by (intros [] x; cbn [flat_map]; rewrite ?app_nil_r; reflexivity).
  rewrite !HF.
  eapply reads_bind; [apply (reads_opt64 bu (f_usize e) (shown (f_usize e))); lia|].
  eapply reads_bind; [apply (reads_opt64 bc (f_csize e) (shown (f_csize e))); lia|].
  rewrite <- (app_nil_r (if bo then write64u (f_offset e) else [])).
  assert (io && ((if io then shown (f_offset e) else 0) =? ZIP64_PLACEHOLDER) = bo) as HB.
  { unfold bo. destruct io; [|reflexivity]. cbn [andb]. apply shown_placeholder. lia. }
  rewrite HB.
  eapply reads_bind; [apply (reads_opt64 bo (f_offset e) (if io then shown (f_offset e) else 0)); lia|].
  assert (snd (if bu then (f_usize e, 8) else (shown (f_usize e), 0)) + snd (if bc then (f_csize e, 8) else (shown (f_csize e), 0))
    + snd (if bo then (f_offset e, 8) else (if io then shown (f_offset e) else 0, 0)) = total) as ->
    by (unfold total; destruct bu, bc, bo; reflexivity).
  rewrite Z.ltb_irrefl. assert ((total >? total) = false) as -> by lia.
  eapply reads_eq; [apply reads_ret|reflexivity|]. f_equal.
  - unfold bc, shown. destruct (f_csize e >? ZIP64_LIMIT); reflexivity.
  - unfold bu, shown. destruct (f_usize e >? ZIP64_LIMIT); reflexivity.
  - unfold bo, shown. destruct io; cbn [andb]; [|reflexivity]. destruct (f_offset e >? ZIP64_LIMIT); reflexivity.
Qed.
Lemma no_extra e io : determine_extra_length e io <= 0 ->
  shown (f_csize e) = f_csize e /\ shown (f_usize e) = f_usize e /\ (io = true -> shown (f_offset e) = f_offset e).
Proof.
  unfold determine_extra_length, shown.
  destruct (f_csize e >? ZIP64_LIMIT), (f_usize e >? ZIP64_LIMIT), (f_offset e >? ZIP64_LIMIT), io; cbn [andb];
    intros H; try lia; repeat split; try reflexivity; discriminate.
Qed.
Lemma extra_range e io : 0 <= determine_extra_length e io <= 24.
Proof. unfold determine_extra_length. destruct (f_csize e >? ZIP64_LIMIT), (f_usize e >? ZIP64_LIMIT), (io && (f_offset e >? ZIP64_LIMIT)); lia. Qed.

Definition forget_offset (e : file_entry) : file_entry :=
  mk_entry (f_name e) (f_crc e) (f_csize e) (f_usize e) (f_method e) 0.
Lemma reads_local e z : entry_ok e -> reads read_local_header (write_local_header e z) (forget_offset e).
Proof.
  intros He. unfold read_local_header, write_local_header.
  eapply reads_bind; [apply reads_sig; reflexivity|].
  eapply reads_bind; [apply reads16; destruct z; unfold ZIP64_VERSION, STANDARD_VERSION; lia|].
  assert (((if z then ZIP64_VERSION else STANDARD_VERSION) >? ZIP64_VERSION) = false) as -> by (destruct z; reflexivity).
  eapply reads_bind; [now apply reads_shared|]. cbv beta iota.
  pose proof (extra_range e false) as HX.
  eapply reads_bind; [apply reads16; lia|].
  eapply reads_bind; [apply reads_name|].
  destruct (determine_extra_length e false >? 0) eqn:E.
  - apply (reads_zip64 e false He). lia.
  - destruct (no_extra e false ltac:(lia)) as (H1 & H2 & _). rewrite H1, H2. apply reads_ret.
Qed.
Lemma reads_cd e : entry_ok e -> reads read_cd_header (write_cd_header e) e.
Proof.
  intros He. unfold read_cd_header, write_cd_header. pose proof (extra_range e true) as HX.
  eapply reads_bind; [apply reads_sig; reflexivity|].
  eapply reads_bind; [apply reads16; unfold STANDARD_VERSION; lia|].
  eapply reads_bind; [apply reads16; destruct (determine_extra_length e true >? 0); unfold ZIP64_VERSION, STANDARD_VERSION; lia|].
  assert (((if determine_extra_length e true >? 0 then ZIP64_VERSION else STANDARD_VERSION) >? ZIP64_VERSION) = false) as ->
    by (destruct (determine_extra_length e true >? 0); reflexivity).
  eapply reads_bind; [now apply reads_shared|]. cbv beta iota.
  eapply reads_bind; [apply reads16; lia|].
  eapply reads_bind; [apply reads16; lia|].
  eapply reads_bind; [apply reads16; lia|].
  eapply reads_bind; [apply reads16; lia|].
  eapply reads_bind; [unfold EXTERNAL_ATTR; apply reads32_bytes; unfold is_byte; lia|].
  rewrite write32_shown by apply He.
  eapply reads_bind; [apply reads32; apply shown_range; apply He|].
  eapply reads_bind; [apply reads_name|].
  destruct (determine_extra_length e true >? 0) eqn:E.
  - eapply reads_eq; [apply (reads_zip64 e true He); lia|reflexivity|now destruct e].
  - destruct (no_extra e true ltac:(lia)) as (H1 & H2 & H3). rewrite H1, H2, H3 by reflexivity.
    eapply reads_eq; [apply reads_ret|reflexivity|now destruct e].
Qed.
Lemma reads_eocd n size offset : 0 <= n < 65536 -> 0 <= size < 2 ^ 32 -> 0 <= offset < 2 ^ 32 ->
  forall s tail, good s = true -> rest s = write_eocd n size offset ++ tail ->
  exists s', read_eocd s = (Ok (n, size, offset), s') /\ good s' = true /\ whole s' = whole s /\ is_file s' = is_file s.
Proof.
  intros H1 H2 H3 s tail G R.
  assert (reads read_eocd (CD_END_SIG ++ write16 0 ++ write16 0 ++ write16 n ++ write16 n ++ write32u size ++ write32u offset) (n, size, offset)) as H.
  { unfold read_eocd.
    eapply reads_bind; [apply reads_sig; reflexivity|].
    eapply reads_bind; [apply reads16; lia|].
    eapply reads_bind; [apply reads16; lia|].
    eapply reads_bind; [apply reads16; lia|].
    eapply reads_bind; [apply reads16; lia|].
    eapply reads_bind; [apply reads32; lia|].
    rewrite <- (app_nil_r (write32u offset)).
    eapply reads_bind; [apply reads32; lia|]. apply reads_ret. }
  unfold write_eocd in R.
  rewrite (H s (write16 0 ++ tail)); [|exact G|].
  - eexists. split; [reflexivity|]. repeat split. exact G.
  - rewrite R. now rewrite <- !app_assoc.
Qed.
Lemma reads_cd_loop es : forall m keys, Forall entry_ok es ->
  reads (read_cd_loop (length es) m keys) (flat_map write_cd_header es)
    (rev (map (fun e => (f_name e, e)) es) ++ m, keys ++ map f_name es).
Proof.
  induction es as [|e es IH]; intros m keys H; cbn [length read_cd_loop flat_map map rev].
  - rewrite app_nil_r. apply reads_ret.
  - inversion H; subst. eapply reads_bind; [now apply reads_cd|].
    eapply reads_eq; [apply IH; assumption|reflexivity|]. rewrite <- !app_assoc. reflexivity.
Qed.

(** *** Lengths *)
Lemma len_write16 x : len (write16 x) = 2. Proof. reflexivity. Qed.
Lemma len_write32u x : len (write32u x) = 4. Proof. reflexivity. Qed.
Lemma len_write32 x : len (write32 x) = 4. Proof. unfold write32. destruct (_ >? _); reflexivity. Qed.
Lemma len_eocd n size offset : len (write_eocd n size offset) = 22. Proof. reflexivity. Qed.
