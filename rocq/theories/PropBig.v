(** C50, C53: compressed members of more than one input buffer. *)
From Coq Require Import String ZArith List Bool Lia.
From Verif Require Import Base BaseFacts Stream Header Tensor Npz ForeignZip NpzFacts ArchiveFacts PropNpz PropZip Arr DeflateSpec Tinfl BitFacts HuffFacts HuffBuild InflCopy InflBits InflRun InflBlocks InflTop
  CutFacts Spec PropCrc PropDeflate ZipSpec AssetsZip PropOthers.
Import ListNotations.
Open Scope Z_scope.

Lemma paused_start z D bits more fuel : bytes_ok z -> bits_of z = bits ++ more -> stream_bits 0 [] bits D ->
  8 * len z + 16 <= Z.of_nat fuel -> paused D (left_after D more) more 0 z (new_inflate fuel).
Proof.
  intros Hz E HS Ef. pose proof (stream_slow _ _ _ _ HS) as HG. rewrite len_nil in HG.
  assert (len bits + len more = 8 * len z) as El by (rewrite <- bits_of_len, E, len_app; reflexivity).
  pose proof (len_nonneg _ bits) as Hb. pose proof (len_nonneg _ more) as Hm.
  split; [lia|]. intros c F' EF Hc. rewrite EF in *. apply bytes_ok_app in Hz. destruct Hz as [Hz1 Hz2].
  split; [reflexivity|]. split; [reflexivity|]. split; [discriminate|]. split; [lia|].
  unfold new_inflate. cbn [is_go is_bb is_nb is_dict is_ofs].
  apply (blocks_ok D (left_after D more) (left_after_slow D more) fuel ltac:(lia) fuel 0 [] bits D HS fuel 0 _ _ more).
  - rewrite left_after_end. lia.
  - split; [|split; [split; [|split]|split; [|split]]].
    + split; [cbn; lia|]. split; [cbn; lia|]. exact Hz1.
    + exact Hz2.
    + unfold ahead. cbn [ti_nb ti_bb ti_in Z.to_nat lsb_bits app]. exact E.
    + apply left_after_start. exact HG.
    + split; [cbn; lia|]. split; [cbn; lia|]. intros i Hi. rewrite len_nil in Hi. lia.
    + exists D. reflexivity.
    + rewrite len_nil. lia.
  - rewrite Z.add_0_l, len_app, El. rewrite Z.mul_comm. apply Z_mod_mult.
  - apply prefix_refl.
  - unfold len in *. lia.
  - unfold len in *. lia.
Qed.
Lemma window_count z D bits more : bits_of z = bits ++ more -> stream_bits 0 [] bits D -> 0 <= Q D <= 8 * len z.
Proof.
  intros E HS. pose proof (stream_slow _ _ _ _ HS) as HG. rewrite len_nil in HG.
  assert (len bits + len more = 8 * len z) as El by (rewrite <- bits_of_len, E, len_app; reflexivity).
  pose proof (len_nonneg _ more). pose proof (len_nonneg _ bits). split; [apply Z.div_pos; [apply len_nonneg|lia]|]. unfold Q. apply Z.div_le_upper_bound; lia.
Qed.

(** What the first buffer leaves behind, given how the stream goes on. *)
Lemma first_buffer z1 F D fuel : z1 <> [] -> F <> [] -> deflates_to (z1 ++ F) D -> 8 * len (z1 ++ F) + 16 <= Z.of_nat fuel ->
  exists more ret out is1, inflate_chunk fuel fuel (new_inflate fuel) z1 [] = Ok (ret, out, is1) /\ ret <> MZ_STREAM_END /\
    paused D (left_after D more) more (len out) F is1 /\ out = ztake (len out) D /\ len out <= len D /\
    len D - len out <= 129 * (62 + 8 * len F) + 131 /\ Q D <= 8 * len (z1 ++ F).
Proof.
  intros Hz HF (HB & bits & more & E & Hm & HS) Ef. pose proof (window_count _ _ _ _ E HS) as HQ.
  pose proof (paused_start _ _ _ _ fuel HB E HS Ef) as HP. pose proof HP as [_ HB0].
  destruct (chunk_ok D (left_after D more) more fuel fuel 0 F (new_inflate fuel) z1 []) as (ret & out & is1 & EC & C).
  - change (0 / 32768) with 0. lia.
  - lia.
  - exact (HB0 z1 F eq_refl Hz).
  - left. left. reflexivity.
  - now rewrite ztake_0 by lia.
  - assert (1 <= len F) as HF1 by (destruct F as [|x l]; [congruence|rewrite len_cons; pose proof (len_nonneg _ l); lia]).
    destruct C as [(_ & _ & C)|(Hr & _ & C)]; [lia|]. destruct (C HF) as (h1 & HP1 & HK & ->).
    assert (h1 <= len D) as Hh.
    { destruct HP1 as [_ HP1]. apply (handed D (left_after D more) more h1 [] is1 F). apply HP1; [now rewrite app_nil_r|exact HF]. }
    pose proof (proj1 HP1) as Hh0.
    assert (len (ztake h1 D) = h1) as EL by (rewrite len_ztake; lia).
    exists more, ret, (ztake h1 D), is1. rewrite EL. split; [exact EC|]. split; [exact Hr|]. split; [exact HP1|].
    split; [reflexivity|]. split; [exact Hh|]. split; [|lia]. unfold left_after in HK. pose proof (len_nonneg _ more).
    pose proof (Z.div_mod (len D - h1 - 131) 129 ltac:(lia)). pose proof (Z.mod_pos_bound (len D - h1 - 131) 129 ltac:(lia)). lia.
Qed.
(** What a second buffer that makes too much does. *)
Lemma second_buffer D more h is z2 fuel : paused D (left_after D more) more h z2 is -> z2 <> [] ->
  Q D + 2 < Z.of_nat fuel -> h mod 32768 <> 0 -> h <= len D -> h + CHUNK + 32768 < len D ->
  exists ret out is1, inflate_chunk fuel fuel is z2 (ztake h D) = Ok (ret, out, is1) /\ ret <> MZ_STREAM_END.
Proof.
  intros [Hh HP] Hz Hf Hm HhD Hlong. assert (0 <= Q D) as HQ0 by (apply Z.div_pos; [apply len_nonneg|lia]).
  assert (between D (left_after D more) more h [] is z2) as B by (apply HP; [now rewrite app_nil_r|exact Hz]).
  assert (0 <= h / 32768) as Hd by (apply Z.div_pos; lia).
  destruct fuel as [|[|fuel]]; try lia. set (loops := S (S fuel)) in *.
  destruct (call_ok D (left_after D more) more loops h [] is z2 (ztake h D)) as (ret & input1 & o & is1 & E & C);
    [lia|exact B|now right|reflexivity|].
  change (inflate_chunk (S (S fuel)) loops) with (inflate_chunk loops loops). unfold loops at 1. cbn [inflate_chunk]. rewrite E. cbn [obind].
  assert (len (ztake h D) = h) as EL by (rewrite len_ztake; lia).
  destruct C as [(-> & ED & Hlo & _)|[(Hret & Hlo & h1 & _ & _ & HF1 & ED)|[(Hret & Hlo & _)|(-> & Hlo & _ & _ & _ & HB)]]].
  - exfalso. apply (f_equal len) in ED. rewrite len_app, EL in ED. lia.
  - exfalso. apply (f_equal len) in ED. rewrite len_app, EL, Hlo, len_ztake in ED. destruct HF1 as [HF1|HF1]; [|unfold CHUNK in *; lia].
    assert (h1 = h + 32 * 32768) as -> by (unfold CHUNK in *; lia). rewrite Z_mod_plus_full in HF1. contradiction.
  - replace (ret =? MZ_DATA_ERROR) with false by (destruct Hret as [-> | ->]; reflexivity). replace (CHUNK - len o =? 0) with false by lia.
    eexists _, _, _. split; [reflexivity|]. destruct Hret as [-> | ->]; discriminate.
  - change (MZ_OK =? MZ_DATA_ERROR) with false. rewrite Hlo, Z.sub_diag. cbn [Z.eqb].
    destruct HB as (Ha & Hnf & HD & HWr).
    unfold mz_inflate. rewrite (not_failed _ Hnf). replace (is_avail is1 =? 0) with false by lia. cbn [negb].
    rewrite (hand_out_ok _ _ (is_ofs is1 + is_avail is1)) by (exact HWr || unfold CHUNK; lia).
    unfold handed_out. rewrite !(Z.min_l (is_avail is1) CHUNK) by (unfold CHUNK; lia). cbn [is_last is_avail obind].
    rewrite Z.sub_diag. change (0 =? 0) with true. rewrite andb_true_r, dict_bytes_len.
    assert ((CHUNK - Z.of_nat (Z.to_nat (is_avail is1)) =? 0) = false) as -> by (apply Z.eqb_neq; rewrite Z2Nat.id by lia; unfold CHUNK; lia).
    destruct (tstatus_eqb (is_last is1) T_DONE) eqn:El.
    + exfalso. assert (is_last is1 = T_DONE) as ELast by (destruct (is_last is1); (reflexivity || discriminate)).
      specialize (HD ELast). apply (f_equal len) in HD. rewrite !len_app, EL, dict_bytes_len, Hlo in HD. lia.
    + change (MZ_OK =? MZ_DATA_ERROR) with false. eexists _, _, _. split; [reflexivity|discriminate].
Qed.

(** A standard stream of one full input buffer [z1] and at most one more, [z2]. Take two other
    ways to go on after [z1]: what they share, [p] bytes at most, bounds what can be decoded
    from [z1] alone from above, and a short one bounds it from below. If no multiple of the
    window size is possible and the rest decodes to more than an output buffer and a window,
    the stream is refused. *)
Theorem C50_second_buffer_lost : forall z1 z2 b F D F' D' p,
  len z1 = 2 ^ 20 -> 0 < len z2 <= 2 ^ 20 -> deflates_to (z1 ++ z2) b ->
  0 < len F <= len z2 -> deflates_to (z1 ++ F) D -> 0 < len F' <= len z2 -> deflates_to (z1 ++ F') D' ->
  (forall n, 0 <= n -> n <= len D -> n <= len D' -> ztake n D = ztake n D' -> n <= p) ->
  (forall n, len D - 129 * (62 + 8 * len F) - 131 <= n <= p -> n mod 2 ^ 15 <> 0) ->
  p + 2 ^ 20 + 2 ^ 15 < len b ->
  npy_inflate (z1 ++ z2) = Throw RuntimeError.
Proof.
  intros z1 z2 b F D F' D' p L1 L2 HB HF HD HF' HD' HP HN Hlong. change (2 ^ 15) with 32768 in *. change (2 ^ 20) with CHUNK in *.
  assert (forall l : bytes, 0 < len l -> l <> []) as HNil by (intros [|x l] H; [rewrite len_nil in H; lia|discriminate]).
  assert (z1 <> []) as Hz1 by (apply HNil; unfold CHUNK in *; lia).
  set (fuel := inflate_fuel (z1 ++ z2)).
  assert (Z.of_nat fuel = 8 * (len z1 + len z2) + 16) as Ef by (unfold fuel, inflate_fuel, len; rewrite app_length; lia).
  destruct (first_buffer z1 F D fuel) as (_ & ret & out & is1 & E & Hr & _ & HO & HLD & HLow & _);
    [exact Hz1|apply HNil; lia|exact HD|rewrite len_app; lia|].
  destruct (first_buffer z1 F' D' fuel) as (_ & ret' & out' & is' & E' & _ & _ & HO' & HL' & _);
    [exact Hz1|apply HNil; lia|exact HD'|rewrite len_app; lia|].
  rewrite E in E'. injection E' as <- <- <-.
  destruct (first_buffer z1 z2 b fuel) as (more & ret' & out' & is' & E' & _ & HPz & HOb & HLb & _ & HQ);
    [exact Hz1|apply HNil; lia|exact HB|rewrite len_app; lia|].
  rewrite E in E'. injection E' as <- <- <-. rewrite len_app in HQ.
  assert (len out <= p) as Hp by (apply HP; [apply len_nonneg|exact HLD|exact HL'|now rewrite <- HO, <- HO']).
  destruct (second_buffer b more (len out) is1 z2 fuel) as (ret2 & out2 & is2 & E2 & Hr2);
    [exact HPz|apply HNil; lia|unfold CHUNK in *; lia|apply HN; lia|exact HLb|lia|].
  rewrite <- HOb in E2.
  unfold npy_inflate, npy_inflate_upto. fold fuel.
  assert (exists f1, fuel = S (S f1)) as [f1 Ef1] by (exists (fuel - 2)%nat; lia).
  assert (forall n y st ret output, y <> [] -> inflate_chunks (S n) fuel st ret y output =
    let* x := inflate_chunk fuel fuel st (ztake CHUNK y) output in
          let '(ret1, output1, st1) := x in
          if ret1 =? MZ_STREAM_END then Ok output1
          else inflate_chunks n fuel st1 ret1 (zdrop CHUNK y) output1) as HC.
  { intros n y st0 r0 o0 Hy. destruct y; [congruence|reflexivity]. }
  rewrite Ef1 at 1. rewrite HC by (intros EE; apply app_eq_nil in EE; destruct EE; contradiction).
  rewrite ztake_app_exact, zdrop_app_exact by (symmetry; exact L1). rewrite E. cbn [obind]. apply Z.eqb_neq in Hr. rewrite Hr.
  rewrite HC by (apply HNil; lia). rewrite ztake_all, zdrop_all by lia. rewrite E2. cbn [obind]. apply Z.eqb_neq in Hr2. rewrite Hr2.
  destruct f1; cbn [inflate_chunks]; now rewrite Hr2.
Qed.
Print Assumptions C50_second_buffer_lost.

(** *** Streams to which this applies *)
(** A stored block that is not the last one. *)
Definition stored (b : bytes) : bytes := [0; len b mod 256; len b / 256; 255 - len b mod 256; 255 - len b / 256] ++ b.
Definition stored_bits (b : bytes) : list bool :=
  false :: lsb_bits 2 0 ++ repeat false 5 ++ lsb_bits 16 (len b) ++ lsb_bits 16 (65535 - len b) ++ bits_of b.
Lemma stored_bits_of b : len b < 65536 -> bits_of (stored b) = stored_bits b.
Proof.
  intros H. pose proof (len_nonneg _ b) as Hl. pose proof (Z.mod_pos_bound (len b) 256 ltac:(lia)) as Hm.
  pose proof (Z.div_mod (len b) 256 ltac:(lia)) as Hdm.
  assert (0 <= len b / 256 < 256) as Hd by (split; [apply Z.div_pos; lia|apply Z.div_lt_upper_bound; lia]).
  unfold stored, stored_bits. cbn [app]. rewrite !bits_of_cons. rewrite (lsb_16 (len b)), (lsb_16 (65535 - len b)) by lia.
  replace ((65535 - len b) mod 256) with (255 - len b mod 256).
  2:{ apply Z.mod_unique_pos with (q := 255 - len b / 256); lia. }
  replace ((65535 - len b) / 256) with (255 - len b / 256).
  2:{ apply Z.div_unique_pos with (r := 255 - len b mod 256); lia. }
  change (lsb_bits 8 0) with (false :: lsb_bits 2 0 ++ repeat false 5). rewrite <- !app_assoc. cbn [app]. rewrite <- ?app_assoc. reflexivity.
Qed.
Lemma stored_bytes_ok b : bytes_ok b -> len b < 65536 -> bytes_ok (stored b).
Proof.
  intros HB H. pose proof (len_nonneg _ b) as Hl. pose proof (Z.mod_pos_bound (len b) 256 ltac:(lia)) as Hm.
  assert (0 <= len b / 256 < 256) as Hd by (split; [apply Z.div_pos; lia|apply Z.div_lt_upper_bound; lia]).
  apply bytes_ok_app. split; [|exact HB]. repeat (apply Forall_cons; [unfold is_byte; lia|]). apply Forall_nil.
Qed.
Lemma stored_len b : len (stored b) = 5 + len b.
Proof. unfold stored. rewrite len_app. reflexivity. Qed.
(** One stored block, and then a stream that starts at a byte boundary. *)
Lemma stored_then pos out b bits D : pos mod 8 = 0 -> bytes_ok b -> len b < 65536 ->
  stream_bits (pos + len (stored_bits b)) (out ++ b) bits D -> stream_bits pos out (stored_bits b ++ bits) D.
Proof.
  intros Hp HB HL HS. unfold stored_bits in *. cbn [app]. apply (Next_block pos out _ (out ++ b)).
  - apply Stored_block; [|cbn; lia|exact HL|exact HB]. change (len (repeat false 5)) with 5.
    replace (pos + 1 + 2 + 5) with (pos + 1 * 8) by lia. now rewrite Z_mod_plus_full.
  - rewrite len_cons in HS. replace (pos + 1 + len _) with (pos + (1 + len (lsb_bits 2 0 ++ repeat false 5 ++ lsb_bits 16 (len b) ++ lsb_bits 16 (65535 - len b) ++ bits_of b))) by lia. exact HS.
Qed.
Definition stored_all (bs : list bytes) : bytes := flat_map stored bs.
Lemma stored_all_bits : forall bs pos out bits D, pos mod 8 = 0 ->
  Forall (fun b => bytes_ok b /\ len b < 65536) bs ->
  stream_bits (pos + 8 * len (stored_all bs)) (out ++ concat bs) bits D ->
  stream_bits pos out (bits_of (stored_all bs) ++ bits) D.
Proof.
  induction bs as [|b bs IH]; intros pos out bits D Hp HA HS; cbn [stored_all flat_map concat] in *.
  - rewrite len_nil, app_nil_r in HS. replace (pos + 8 * 0) with pos in HS by lia. exact HS.
  - apply Forall_cons_iff in HA. destruct HA as [[HB HL] HA]. rewrite bits_of_app, <- app_assoc, stored_bits_of by exact HL.
    assert (len (stored_bits b) = 8 * len (stored b)) as EL by (rewrite <- stored_bits_of, bits_of_len by exact HL; reflexivity).
    apply stored_then; auto. apply IH; [|exact HA|].
    + rewrite EL, Z.mul_comm. now rewrite Z_mod_plus_full.
    + rewrite EL, <- app_assoc. fold (stored_all bs) in HS. rewrite len_app in HS.
      replace (pos + 8 * len (stored b) + 8 * len (stored_all bs)) with (pos + 8 * (len (stored b) + len (stored_all bs))) by lia. exact HS.
Qed.
Lemma stored_all_ok bs : Forall (fun b => bytes_ok b /\ len b < 65536) bs -> bytes_ok (stored_all bs).
Proof.
  intros H. unfold stored_all. induction H as [|b bs [HB HL] _ IH]; [apply Forall_nil|]. cbn [flat_map]. apply bytes_ok_app.
  split; [now apply stored_bytes_ok|exact IH].
Qed.
(** Bits, as bytes. *)
Lemma bytes_for n : forall bits, length bits = (8 * n)%nat -> exists z, bytes_ok z /\ bits_of z = bits /\ length z = n.
Proof.
  induction n as [|n IH]; intros bits HL.
  - exists []. assert (bits = []) as -> by (destruct bits; [reflexivity|discriminate]). split; [apply Forall_nil|]. split; reflexivity.
  - destruct (IH (skipn 8 bits)) as (z & HB & HE & HZ); [rewrite skipn_length; lia|].
    assert (length (firstn 8 bits) = 8%nat) as H8 by (rewrite firstn_length; lia).
    exists (bval (firstn 8 bits) :: z). split; [|split; [|cbn [length]; lia]].
    + apply Forall_cons; [|exact HB]. pose proof (bval_range (firstn 8 bits)) as HR. rewrite H8 in HR. exact HR.
    + rewrite bits_of_cons, HE. rewrite <- H8 at 1. rewrite lsb_bval. apply firstn_skipn.
Qed.
Lemma bytes_of_bits bits : exists z pad, bytes_ok z /\ bits_of z = bits ++ pad /\ len pad < 8 /\ 8 * len z < len bits + 8.
Proof.
  set (n := ((length bits + 7) / 8)%nat). pose proof (Nat.div_mod (length bits + 7) 8 ltac:(lia)) as DM.
  pose proof (Nat.mod_upper_bound (length bits + 7) 8 ltac:(lia)) as MB. fold n in DM.
  destruct (bytes_for n (bits ++ repeat false (8 * n - length bits))) as (z & HB & HE & HZ).
  { rewrite app_length, repeat_length. lia. }
  exists z, (repeat false (8 * n - length bits)). split; [exact HB|]. split; [exact HE|]. unfold len. rewrite repeat_length, HZ. lia.
Qed.
(** The empty last block. *)
Definition the_end : bytes := [1; 0; 0; 255; 255].
Lemma the_end_ok pos out : pos mod 8 = 0 -> stream_bits pos out (bits_of the_end) out.
Proof.
  intros Hp. change (bits_of the_end) with (true :: lsb_bits 2 0 ++ repeat false 5 ++ lsb_bits 16 (len (@nil Z)) ++ lsb_bits 16 (65535 - len (@nil Z)) ++ bits_of []).
  apply Last_block. rewrite <- (app_nil_r out) at 2. apply Stored_block; [|cbn; lia|cbn; lia|apply Forall_nil].
  change (len (repeat false 5)) with 5. replace (pos + 1 + 2 + 5) with (pos + 1 * 8) by lia. now rewrite Z_mod_plus_full.
Qed.
Lemma stored_stream bs : Forall (fun b => bytes_ok b /\ len b < 65536) bs -> deflates_to (stored_all bs ++ the_end) (concat bs).
Proof.
  intros H. split.
  - apply bytes_ok_app. split; [now apply stored_all_ok|]. apply is_byteb_ok. reflexivity.
  - exists (bits_of (stored_all bs ++ the_end)), []. split; [now rewrite app_nil_r|]. split; [reflexivity|].
    rewrite bits_of_app. apply stored_all_bits; [reflexivity|exact H|]. cbn [app]. apply the_end_ok.
    rewrite Z.add_0_l, Z.mul_comm. apply Z_mod_mult.
Qed.
Lemma stored_all_app a b : stored_all (a ++ b) = stored_all a ++ stored_all b.
Proof. apply flat_map_app. Qed.
Lemma stored_all_len bs : len (stored_all bs) = 5 * len bs + len (concat bs).
Proof.
  induction bs as [|b bs IH]; [reflexivity|]. cbn [stored_all flat_map concat]. fold (stored_all bs).
  rewrite !len_app, len_cons, stored_len, IH. lia.
Qed.

(** Streams that begin with stored blocks (which is how incompressible data is sent) of which
    one reaches up to 8 bytes over the end of the first input buffer, and go on in any way:
    if they decode to 2^21 + 2^15 bytes or more but fit in two input buffers, libnpy
    refuses them. *)
Theorem C50_more_than_one_buffer : forall bs d0 d1 tail b,
  Forall (fun x => bytes_ok x /\ len x < 65536) bs -> bytes_ok (d0 ++ d1) -> len (d0 ++ d1) < 65536 -> len bs <= 2000 ->
  len (stored_all bs) + 5 + len d0 = 2 ^ 20 -> 1 <= len d1 <= 8 -> 5 <= len tail -> len d1 + len tail <= 2 ^ 20 ->
  deflates_to (stored_all bs ++ stored (d0 ++ d1) ++ tail) b -> 2 ^ 21 + 2 ^ 15 <= len b ->
  npy_inflate (stored_all bs ++ stored (d0 ++ d1) ++ tail) = Throw RuntimeError.
Proof.
  intros bs d0 d1 tail b HA HB HL Hk Hsz Hd1 Ht1 Ht2 HD Hb.
  set (head := [0; len (d0 ++ d1) mod 256; len (d0 ++ d1) / 256; 255 - len (d0 ++ d1) mod 256; 255 - len (d0 ++ d1) / 256]).
  set (z1 := stored_all bs ++ head ++ d0).
  assert (forall e, len e = len d1 -> stored (d0 ++ e) = head ++ d0 ++ e) as HE.
  { intros e HX. unfold stored, head. rewrite !len_app, HX. reflexivity. }
  assert (forall e t, len e = len d1 -> stored_all bs ++ stored (d0 ++ e) ++ t = z1 ++ e ++ t) as HZ.
  { intros e t HX. rewrite HE by exact HX. unfold z1. rewrite <- !app_assoc. reflexivity. }
  assert (forall e, bytes_ok e -> len e = len d1 -> deflates_to (z1 ++ e ++ the_end) (concat bs ++ d0 ++ e)) as HS.
  { intros e He HX. rewrite <- HZ by exact HX. replace (stored_all bs ++ stored (d0 ++ e) ++ the_end) with (stored_all (bs ++ [d0 ++ e]) ++ the_end).
    2:{ rewrite stored_all_app, <- app_assoc. cbn [stored_all flat_map]. now rewrite app_nil_r. }
    replace (concat bs ++ d0 ++ e) with (concat (bs ++ [d0 ++ e])).
    2:{ rewrite concat_app. cbn [concat]. now rewrite app_nil_r. }
    apply stored_stream. apply Forall_app. split; [exact HA|]. constructor; [|constructor]. split.
    - apply bytes_ok_app in HB. apply bytes_ok_app. tauto.
    - rewrite len_app, HX. now rewrite len_app in HL. }
  rewrite HZ in * by reflexivity.
  destruct d1 as [|x d1]; [rewrite len_nil in Hd1; lia|].
  set (y := if x =? 0 then 1 else 0).
  assert (y <> x /\ is_byte y) as [Hy Hyb] by (unfold y, is_byte; destruct (x =? 0) eqn:Ex; lia).
  apply bytes_ok_app in HB. destruct HB as [HB0 HB1]. pose proof (Forall_inv_tail HB1) as HB2.
  pose proof (HS (x :: d1) HB1 eq_refl) as HS1. pose proof (HS (y :: d1) (Forall_cons _ Hyb HB2) eq_refl) as HS2.
  set (p := len (concat bs ++ d0)). pose proof (len_nonneg _ (concat bs)) as Hc0. pose proof (len_nonneg _ bs) as Hb0. pose proof (len_nonneg _ d0).
  assert (p = 2 ^ 20 - 5 * len bs - 5) as Ep by (unfold p; rewrite stored_all_len in Hsz; rewrite len_app; lia).
  assert (len the_end = 5) as Hte by reflexivity.
  apply (C50_second_buffer_lost z1 ((x :: d1) ++ tail) b ((x :: d1) ++ the_end) (concat bs ++ d0 ++ x :: d1)
    ((y :: d1) ++ the_end) (concat bs ++ d0 ++ y :: d1) p); auto.
  - unfold z1, head. rewrite !len_app. change (len [0; _; _; _; _]) with 5. lia.
  - rewrite len_app. lia.
  - rewrite !len_app, Hte. lia.
  - rewrite !len_app, Hte, !len_cons in *. lia.
  - intros n Hn0 _ _ En. destruct (Z.le_gt_cases n p) as [HX|HX]; [exact HX|exfalso].
    assert (forall w, znth (ztake n (concat bs ++ d0 ++ w :: d1)) p = Some w) as HW.
    { intros w. rewrite app_assoc, ztake_app_ge by (fold p; lia). rewrite InflCopy.znth_app2 by (fold p; lia). fold p. rewrite Z.sub_diag.
      cbn [ztake]. replace (n - p <=? 0) with false by lia. reflexivity. }
    pose proof (HW x) as H1. rewrite En, HW in H1. congruence.
  - intros n Hn HM. apply Z.mod_divide in HM; [|lia]. destruct HM as [q Hq].
    assert (len (concat bs ++ d0 ++ x :: d1) = p + len (x :: d1)) as El by (unfold p; rewrite !len_app; lia).
    rewrite El, !len_app, Hte in Hn. change (2 ^ 20) with 1048576 in *. change (2 ^ 15) with 32768 in *. lia.
  - change (2 ^ 21) with (2 ^ 20 + 2 ^ 20) in Hb. lia.
Qed.
Print Assumptions C50_more_than_one_buffer.

(** Such streams exist for any data of 1 048 497 bytes (15 whole stored blocks and one of
    65 472 bytes) followed by a run of zeros. *)
Lemma copy_more_zeros c n : forall m, 1 <= m -> copy n 1 (c ++ zrepeat 0 m) = c ++ zrepeat 0 (m + Z.of_nat n).
Proof.
  induction n as [|n IH]; intros m Hm; cbn [copy]; [now rewrite Z.add_0_r|].
  assert (nth (Z.to_nat (len (c ++ zrepeat 0 m) - 1)) (c ++ zrepeat 0 m) 0 = 0) as ->.
  { pose proof (len_nonneg _ c). rewrite app_nth2; [apply nth_repeat|]. rewrite len_app, len_zrepeat. unfold len in *. lia. }
  rewrite <- app_assoc, zrepeat_snoc by lia. rewrite IH by lia. do 2 f_equal. lia.
Qed.
Lemma run_of_zeros c n pos : exists bits, stream_bits pos c bits (c ++ zrepeat 0 (1 + 258 * Z.of_nat n)) /\ len bits = 18 + 13 * Z.of_nat n.
Proof.
  set (cp := codeword fixed_lengths 285 ++ lsb_bits 0 0 ++ codeword fixed_distances 0 ++ lsb_bits 0 0).
  assert (forall s, 0 <= s < 288 -> in_code fixed_lengths s) as Hin.
  { intros s Hs. split; [exact Hs|]. unfold code_len.
    assert (forallb (fun x => 0 <? nth (Z.to_nat x) fixed_lengths 0) (map Z.of_nat (seq 0 288)) = true) as C by reflexivity.
    rewrite forallb_forall in C. apply Z.ltb_lt. apply C. apply in_map_iff. exists (Z.to_nat s). rewrite in_seq. lia. }
  assert (token_bits fixed_lengths fixed_distances (Lit 0) (codeword fixed_lengths 0)) as HL by (constructor; [lia|apply Hin; lia]).
  assert (token_bits fixed_lengths fixed_distances (Copy 258 1) cp) as HCp.
  { apply (Copy_bits _ _ 28 258 0 0 0 1 0 0); try reflexivity; try lia.
    - apply Hin. lia.
    - split; [cbn; lia|reflexivity]. }
  assert (forall n, tokens_bits fixed_lengths fixed_distances (repeat (Copy 258 1) n) (concat (repeat cp n) ++ codeword fixed_lengths 256)) as HR.
  { clear n. induction n as [|n IH]; cbn [repeat concat app]; [apply No_tokens, Hin; lia|]. rewrite <- app_assoc.
    apply More_tokens; [exact HCp|auto]. }
  assert (forall n m, 1 <= m -> expands (c ++ zrepeat 0 m) (repeat (Copy 258 1) n) (c ++ zrepeat 0 (m + 258 * Z.of_nat n))) as HX.
  { clear n. induction n as [|n IH]; intros m Hm; cbn [repeat].
    - replace (m + 258 * Z.of_nat 0) with m by lia. constructor.
    - apply Expand_copy; [rewrite len_app, len_zrepeat; pose proof (len_nonneg _ c); lia|]. rewrite copy_more_zeros by lia.
      replace (m + 258 * Z.of_nat (S n)) with (m + Z.of_nat (Z.to_nat 258) + 258 * Z.of_nat n) by lia. apply IH. lia. }
  exists (true :: lsb_bits 2 1 ++ codeword fixed_lengths 0 ++ concat (repeat cp n) ++ codeword fixed_lengths 256). split.
  - apply Last_block. apply (Fixed_block _ _ (Lit 0 :: repeat (Copy 258 1) n)).
    + apply More_tokens; [exact HL|apply HR].
    + apply Expand_lit. change [0] with (zrepeat 0 1). apply HX. lia.
  - rewrite len_cons, !len_app. change (len (lsb_bits 2 1)) with 2. change (len (codeword fixed_lengths 0)) with 8.
    change (len (codeword fixed_lengths 256)) with 7.
    assert (forall n, len (concat (repeat cp n)) = 13 * Z.of_nat n) as ->; [|lia].
    clear n. induction n as [|n IH]; [reflexivity|]. cbn [repeat concat]. rewrite len_app, IH. change (len cp) with 13. lia.
Qed.
Lemma chop k : forall c, len c = 65535 * Z.of_nat k -> bytes_ok c ->
  exists bs, Forall (fun x => bytes_ok x /\ len x = 65535) bs /\ len bs = Z.of_nat k /\ concat bs = c.
Proof.
  induction k as [|k IH]; intros c Hc Hb.
  - exists []. split; [constructor|]. split; [reflexivity|]. symmetry. apply len_0_nil. lia.
  - destruct (IH (zdrop 65535 c)) as (bs & HF & Hl & He); [rewrite len_zdrop; lia|now apply CutFacts.Forall_zdrop|].
    exists (ztake 65535 c :: bs). split; [constructor; [split; [now apply CutFacts.Forall_ztake|rewrite len_ztake; lia]|exact HF]|].
    split; [rewrite len_cons; unfold bytes in *; lia|]. cbn [concat]. rewrite He. apply ztake_zdrop.
Qed.
Theorem C50_more_than_one_buffer_case : forall c n,
  bytes_ok c -> len c = 1048497 -> 1081682 <= 258 * Z.of_nat n -> Z.of_nat n <= 600000 ->
  exists z, deflates_to z (c ++ zrepeat 0 (1 + 258 * Z.of_nat n)) /\ len z < 2 ^ 20 + 8 + 13 * Z.of_nat n / 8 /\
            npy_inflate z = Throw RuntimeError.
Proof.
  intros c n Hb Hc H1 H2.
  destruct (chop 15 (ztake 983025 c)) as (bs & HF & Hl & He); [rewrite len_ztake; lia|now apply CutFacts.Forall_ztake|].
  set (d := zdrop 983025 c). set (d0 := ztake 65471 d). set (d1 := zdrop 65471 d).
  assert (len d = 65472) as Ed by (unfold d; rewrite len_zdrop; lia).
  assert (d0 ++ d1 = d) as E01 by apply ztake_zdrop.
  assert (len d0 = 65471 /\ len d1 = 1) as [E0 E1] by (unfold d0, d1; rewrite len_ztake, len_zdrop; lia).
  assert (concat bs ++ d = c) as Ec by (rewrite He; apply ztake_zdrop).
  destruct (run_of_zeros c n (8 * len (stored_all bs ++ stored d))) as (bits & HS & HLb).
  destruct (bytes_of_bits bits) as (tail & pad & Ht & Eb & Hp & Hsz).
  assert (bytes_ok d) as Hd by now apply CutFacts.Forall_zdrop.
  assert (len (stored_all bs) = 983100) as Es.
  { rewrite stored_all_len, He, Hl, len_ztake. lia. }
  assert (Forall (fun x => bytes_ok x /\ len x < 65536) bs) as HF'.
  { eapply Forall_impl; [|exact HF]. intros a [? ?]. split; [assumption|lia]. }
  assert (deflates_to (stored_all bs ++ stored d ++ tail) (c ++ zrepeat 0 (1 + 258 * Z.of_nat n))) as HD.
  { split.
    - apply bytes_ok_app. split; [now apply stored_all_ok|]. apply bytes_ok_app. split; [apply stored_bytes_ok; [exact Hd|lia]|exact Ht].
    - exists (bits_of (stored_all bs ++ stored d) ++ bits), pad. split; [rewrite app_assoc, bits_of_app, Eb; now rewrite <- app_assoc|].
      split; [exact Hp|].
      replace (stored_all bs ++ stored d) with (stored_all (bs ++ [d])) in * by (rewrite stored_all_app; cbn [stored_all flat_map]; now rewrite app_nil_r).
      apply stored_all_bits; [reflexivity|apply Forall_app; split; [exact HF'|constructor; [split; [exact Hd|lia]|constructor]]|].
      cbn [app]. rewrite concat_app. cbn [concat]. rewrite app_nil_r, Ec. exact HS. }
  exists (stored_all bs ++ stored d ++ tail). split; [exact HD|]. split.
  - rewrite !len_app, stored_len, Es, Ed. change (2 ^ 20) with 1048576. pose proof (Z_div_mod_eq_full (13 * Z.of_nat n) 8). pose proof (Z.mod_pos_bound (13 * Z.of_nat n) 8). lia.
  - rewrite <- E01 in *. rewrite E01 in Ed.
    assert (len bits <= 8 * len tail) as Hlo.
    { assert (len (bits_of tail) = 8 * len tail) as <- by apply bits_of_len. rewrite Eb, len_app. pose proof (len_nonneg _ pad). lia. }
    apply (C50_more_than_one_buffer bs d0 d1 tail (c ++ zrepeat 0 (1 + 258 * Z.of_nat n))); auto.
    + rewrite len_app. lia.
    + rewrite Hl. lia.
    + rewrite Es, E0. reflexivity.
    + lia.
    + lia.
    + change (2 ^ 20) with 1048576. lia.
    + rewrite len_app, len_zrepeat. change (2 ^ 21 + 2 ^ 15) with 2129920. lia.
Qed.
Print Assumptions C50_more_than_one_buffer_case.

(** The same for a member of an archive: a standard member, with the right checksum, that
    libnpy cannot read. *)
Lemma refused_member v c a ms r r' n m g : c_inflate c = npy_inflate -> zip_file a ms -> opened a r -> reader_after v c r r' ->
  member_named ms n = Some m -> z_method m = 8 -> len (z_data m) <= mem v -> npy_inflate (z_data m) = Throw RuntimeError ->
  exists r'', reader_after v c r r'' /\ r_peek v c r' n g = (Throw RuntimeError, r'', g) /\
    forall d, r_read v c d r' n g = (Throw RuntimeError, r'', g).
Proof.
  intros HI HZ Hop Haf EM H8 HM HN.
  destruct (opened_zip a ms r (proj1 HZ) Hop) as [HS HK].
  destruct (after_serves v c a ms r r' HZ HS Haf) as [HS' _].
  pose proof (find_member ms n) as HFd. rewrite EM in HFd. destruct HFd as [HFd HIn].
  destruct (read_zip v c a ms m r' n HZ HS') as (r'' & _ & _ & HR); [destruct HS' as (-> & _); exact HFd|exact HIn|].
  exists r''. split.
  { replace r'' with (snd (fst (r_peek v c r' n g))) by (rewrite r_peek_reader, HR; reflexivity). now constructor. }
  destruct (len (z_data m) >? mem v) eqn:EM2; [lia|].
  rewrite H8, HI in HR. change (8 =? DEFLATED) with true in HR. cbv iota in HR.
  rewrite HN in HR. unfold r_peek, r_read. rewrite HR. auto.
Qed.
Theorem C53_large_members_refused : forall v c a ms r r' n m g bs d0 d1 tail b,
  c_inflate c = npy_inflate -> host_big v = false -> zip_file a ms -> opened a r -> reader_after v c r r' ->
  member_named ms n = Some m -> z_method m = 8 -> len (z_data m) <= mem v ->
  z_data m = stored_all bs ++ stored (d0 ++ d1) ++ tail ->
  Forall (fun x => bytes_ok x /\ len x < 65536) bs -> bytes_ok (d0 ++ d1) -> len (d0 ++ d1) < 65536 -> len bs <= 2000 ->
  len (stored_all bs) + 5 + len d0 = 2 ^ 20 -> 1 <= len d1 <= 8 -> 5 <= len tail -> len d1 + len tail <= 2 ^ 20 ->
  deflates_to (z_data m) b -> 2 ^ 21 + 2 ^ 15 <= len b ->
  exists r'', reader_after v c r r'' /\ r_peek v c r' n g = (Throw RuntimeError, r'', g) /\
    forall d, r_read v c d r' n g = (Throw RuntimeError, r'', g).
Proof.
  intros v c a ms r r' n m g bs d0 d1 tail b HI _ HZ Hop Haf EM H8 HM Hz HA HB HL Hk Hsz Hd1 Ht1 Ht2 HD Hb.
  apply (refused_member v c a ms r r' n m g); auto. rewrite Hz in HD |- *. now apply (C50_more_than_one_buffer bs d0 d1 tail b).
Qed.
Print Assumptions C53_large_members_refused.

(** It happens: an archive with one such member, complete and with the checksum of its
    contents, opens and cannot be read. *)
Definition packed_member (z : bytes) (b : bytes) : zfile :=
  mk_zfile (str "a.npy") 8 (crc32_standard b) z (len b) 0 20 0 0x21 None 0x31E 20 0 0x21 None 0 0 0.
Definition packed_zip (z b : bytes) : bytes :=
  local_record (packed_member z b) ++ flat_map central_record [packed_member z b]
  ++ end_record 0 0 1 1 51 (len (local_record (packed_member z b))).
Lemma packed_zip_ok z b : bytes_ok b -> len z < 2 ^ 31 -> len b < 2 ^ 32 - 1 -> zip_file (packed_zip z b) [packed_member z b].
Proof.
  intros HB Hz Hb. pose proof (len_nonneg _ z). pose proof (len_nonneg _ b).
  destruct (C32_crc_is_standard b HB ltac:(lia)) as [HC HC2].
  split; [split; [reflexivity|split]|].
  - constructor; [|constructor]. unfold zfile_ok, packed_member, extra_ok, placed, moved, half, word. cbn [z_name z_method z_crc z_data z_size z_offset l_version l_flags l_time l_extra c_made_by c_version c_flags c_time c_extra c_disk c_internal c_external].
    change (len (str "a.npy")) with 5. repeat split; try lia; auto.
  - exists (local_record (packed_member z b)), [], 0, 0, 1, 51. split; [reflexivity|]. unfold half, word. repeat split; try lia.
    + apply len_nonneg.
    + unfold local_record, local_with, packed_member. cbn [z_name z_method z_crc z_data z_size z_offset l_version l_flags l_time l_extra].
      rewrite !len_app, !len_le16, !len_le32. unfold moved, field32, extra_field; cbn iota; rewrite ?len_le32. change (len (str "a.npy")) with 5. rewrite len_nil. lia.
  - constructor; [|constructor]. exists [], (flat_map central_record [packed_member z b] ++ end_record 0 0 1 1 51 (len (local_record (packed_member z b)))).
    split; reflexivity.
Qed.

Theorem C53_large_member_case : forall v c x n, c_inflate c = npy_inflate -> host_big v = false ->
  bytes_ok x -> len x = 1048497 -> 1081682 <= 258 * Z.of_nat n -> Z.of_nat n <= 600000 -> 2 ^ 21 <= mem v ->
  exists z r, let b := x ++ zrepeat 0 (1 + 258 * Z.of_nat n) in
    deflates_to z b /\ zip_file (packed_zip z b) [packed_member z b] /\ opened (packed_zip z b) r /\
    r_keys r = [str "a.npy"] /\
    forall g, fst (fst (r_peek v c r (str "a.npy") g)) = Throw RuntimeError /\
      forall d, fst (fst (r_read v c d r (str "a.npy") g)) = Throw RuntimeError.
Proof.
  intros v c x n HI _ Hx Hl H1 H2 HM. set (b := x ++ zrepeat 0 (1 + 258 * Z.of_nat n)). 
  destruct (C50_more_than_one_buffer_case x n Hx Hl H1 H2) as (z & HD & HLz & HN). fold b in HD.
  assert (bytes_ok b) as HB.
  { apply bytes_ok_app. split; [exact Hx|]. unfold zrepeat. apply Forall_forall. intros y Hy. apply repeat_spec in Hy. subst y. unfold is_byte. lia. }
  assert (len b < 2 ^ 32 - 1) as HLb by (unfold b; rewrite len_app, len_zrepeat; lia).
  assert (len z < 2 ^ 21) as HLz2.
  { change (2 ^ 20) with 1048576 in HLz. change (2 ^ 21) with 2097152. assert (13 * Z.of_nat n / 8 <= 975000) by (apply Z.div_le_upper_bound; lia). lia. }
  assert (zip_file (packed_zip z b) [packed_member z b]) as HZ by (apply packed_zip_ok; [exact HB|lia|exact HLb]).
  destruct (C53_archives_of_other_programs_open _ _ (proj1 HZ)) as ((r & Hr) & _ & HK).
  assert (opened (packed_zip z b) r) as Hop by (left; exact Hr).
  exists z, r. cbv zeta. split; [exact HD|]. split; [exact HZ|]. split; [exact Hop|]. split.
  { destruct (opened_zip _ _ r (proj1 HZ) Hop) as [_ ->]. reflexivity. }
  intros g. destruct (refused_member v c _ _ r r (str "a.npy") (packed_member z b) g HI HZ Hop (after_none v c r) eq_refl eq_refl) as (r'' & _ & E1 & E2);
    [cbn [packed_member z_data]; lia|exact HN|].
  split; [now rewrite E1|]. intros d. now rewrite E2.
Qed.
Print Assumptions C53_large_member_case.
