(** mz_inflate and npy_inflate on standard DEFLATE streams. *)
From Coq Require Import ZArith List Bool Lia.
From Verif Require Import Base BaseFacts Arr DeflateSpec Tinfl BitFacts HuffFacts HuffBuild InflCopy InflBits InflRun InflBlocks.
Import ListNotations.
Open Scope Z_scope.

(** ** What is handed out *)
Lemma dict_bytes_list : forall l d i, (forall j, 0 <= j < len l -> arr_find d (i + j) = znth l j) ->
  dict_bytes (length l) d i = l.
Proof.
  induction l as [|x l IH]; intros d i H; cbn [length dict_bytes]; [reflexivity|].
  f_equal.
  - unfold arr_get. specialize (H 0). rewrite len_cons in H. pose proof (len_nonneg _ l).
    rewrite Z.add_0_r in H. rewrite H by lia. reflexivity.
  - apply IH. intros j Hj. replace (i + 1 + j) with (i + (1 + j)) by lia. rewrite H.
    + change (x :: l) with ([x] ++ l). rewrite znth_app2.
      * f_equal. change (len [x]) with 1. lia.
      * change (len [x]) with 1. lia.
    + rewrite len_cons. lia.
Qed.
Lemma win_bytes q d c out o : win q d c out -> 0 <= o <= c -> dict_bytes (Z.to_nat (c - o)) d o = zdrop (q * 32768 + o) out.
Proof.
  intros (Hc & (Hq & E) & Hw) Ho. set (l := zdrop (q * 32768 + o) out).
  assert (len l = c - o) as El by (unfold l; rewrite len_zdrop; lia).
  replace (Z.to_nat (c - o)) with (length l) by (unfold len in El; lia).
  apply dict_bytes_list. intros j Hj.
  assert (out = ztake (q * 32768 + o) out ++ l) as Eo by (symmetry; apply ztake_zdrop).
  assert (len (ztake (q * 32768 + o) out) = q * 32768 + o) as Et by (rewrite len_ztake; lia).
  replace (znth l j) with (znth out (q * 32768 + o + j)).
  2:{ rewrite Eo, znth_app2 by lia. f_equal. lia. }
  rewrite <- Hw by lia. f_equal. replace (q * 32768 + o + j) with (o + j + q * 32768) by lia. rewrite Z_mod_plus_full.
  symmetry. apply Z.mod_small. lia.
Qed.
Lemma dict_bytes_len n d i : len (dict_bytes n d i) = Z.of_nat n.
Proof. revert i. induction n as [|n IH]; intros i; cbn [dict_bytes]; [reflexivity|]. rewrite len_cons, IH. lia. Qed.
(** the memcpy reads cells that were written *)
Definition written (d : arr) (a b : Z) : Prop := forall i, a <= i < b -> 0 <= i < 32768 /\ arr_find d i <> None.
Lemma written_none d a b : b <= a -> written d a b.
Proof. intros H i Hi. lia. Qed.
Lemma written_set d a b i x : 0 <= i -> 0 <= a -> written d a b -> written (arr_set d i x) a b.
Proof.
  intros Hi Ha H j Hj. destruct (H j Hj) as [H1 H2]. split; [exact H1|]. destruct (Z.eq_dec j i) as [->|N].
  - rewrite arr_find_same. discriminate.
  - rewrite arr_find_other by lia. exact H2.
Qed.
Lemma written_push d a b x : 0 <= a -> 0 <= b < 32768 -> written d a b -> written (arr_set d b x) a (b + 1).
Proof.
  intros Ha Hb H j Hj. destruct (Z.eq_dec j b) as [->|N].
  - split; [lia|]. rewrite arr_find_same. discriminate.
  - destruct (H j ltac:(lia)) as [H1 H2]. split; [exact H1|]. rewrite arr_find_other by lia. exact H2.
Qed.
Lemma store_room c s : 0 <= ti_cur s < 32768 -> store c s = RDone tt (set_out s (arr_set (ti_dict s) (ti_cur s) c) (ti_cur s + 1)).
Proof.
  intros H. unfold store, dict_put. change TINFL_LZ_DICT_SIZE with 32768.
  now replace ((0 <=? ti_cur s) && (ti_cur s <? 32768)) with true by lia.
Qed.
Lemma memcpy_ok : forall n d a b, written d a b -> a + Z.of_nat n <= b -> memcpy_fault n d a = None.
Proof.
  induction n as [|n IH]; intros d a b H Hn; cbn [memcpy_fault]; [reflexivity|].
  destruct (H a ltac:(lia)) as [H1 H2]. unfold dict_get. change TINFL_LZ_DICT_SIZE with 32768.
  replace ((0 <=? a) && (a <? 32768)) with true by lia. destruct (arr_find d a); [|congruence].
  apply (IH d (a + 1) b); [|lia]. intros i Hi. apply H. lia.
Qed.
Lemma hand_out_ok is n b : written (is_dict is) (is_ofs is) b -> is_ofs is + Z.min (is_avail is) n <= b -> 0 <= Z.min (is_avail is) n ->
  hand_out is n = Ok (handed_out is n).
Proof. intros H Hb Hb2. unfold hand_out. replace (_ <? 0) with false by lia. rewrite (memcpy_ok _ _ _ b H) by lia. reflexivity. Qed.
Lemma hand_out_none is n : Z.min (is_avail is) n = 0 -> hand_out is n = Ok (handed_out is n).
Proof. intros H. unfold hand_out. rewrite H. cbn [Z.ltb Z.compare]. reflexivity. Qed.
Lemma win_written q d c out o : win q d c out -> 0 <= o -> written d o c.
Proof.
  intros (Hc & (Hq & E) & Hw) Ho i Hi. split; [lia|].
  assert (i = (q * 32768 + i) mod 32768) as Ei by (rewrite Z.add_comm, Z_mod_plus_full; symmetry; apply Z.mod_small; lia).
  rewrite Ei, Hw by lia. destruct (znth_in_range _ out (q * 32768 + i) ltac:(lia)) as [x ->]. discriminate.
Qed.

Section Top.
Variables (D : bytes) (K : Z -> Z) (more : list bool).
(** a full window can find the input used up *)
Definition tight : Prop := exists n, n mod 32768 = 0 /\ 0 < n < len D /\ K n <= 61.
Local Notation st := (InflBits.st D K).
Local Notation leads := (InflBits.leads D K).
Definition fin (h : Z) (F : bytes) (_ : unit) (s : tst) : Prop := st h F s more D.

(** between two calls of tinfl_decompress: [h] bytes were handed out; [input] is what is
    left of this chunk, [F] the later chunks *)
Definition between (h : Z) (F : bytes) (is : inflate_state) (input : bytes) : Prop :=
  is_ofs is = h mod 32768 /\ is_avail is = 0 /\ is_last is <> T_FAILED /\ 0 <= h /\
  leads fin h F (is_go is (mk_tst input (is_bb is) (is_nb is) (is_dict is) (is_ofs is))).
(** between two chunks *)
Definition paused (h : Z) (F : bytes) (is : inflate_state) : Prop :=
  0 <= h /\ forall c F', F = c ++ F' -> c <> [] -> between h F' is c.
(** the stream has ended *)
Definition ended (is : inflate_state) : Prop :=
  is_go is = (fun s' => RDone tt s') /\ is_avail is = 0 /\ is_last is = T_DONE.
(** output is never held back: either all is aligned, or there is always room *)
Definition fits (h : Z) : Prop := h mod 32768 = 0 \/ len D < CHUNK.
(** the output buffer is full, and there is more in the window *)
Definition held_back (before : bytes) (is : inflate_state) : Prop :=
  0 < is_avail is <= 32768 /\ is_last is <> T_FAILED /\
  (is_last is = T_DONE -> before ++ dict_bytes (Z.to_nat (is_avail is)) (is_dict is) (is_ofs is) = D) /\
  written (is_dict is) (is_ofs is) (is_ofs is + is_avail is).
Definition Q : Z := len D / 32768.

Lemma window h F s bits out : st h F s bits out -> 0 <= h ->
  h mod 32768 <= ti_cur s <= 32768 /\ len out = h + (ti_cur s - h mod 32768) /\ len out <= len D /\ h <= len out /\
  out = ztake (len out) D /\
  ztake (len out) D = ztake h D ++ dict_bytes (Z.to_nat (ti_cur s - h mod 32768)) (ti_dict s) (h mod 32768) /\
  written (ti_dict s) (h mod 32768) (ti_cur s).
Proof.
  intros (_ & _ & W & (r & ED) & Hq) Hh. pose proof (Z.div_mod h 32768 ltac:(lia)) as DM.
  pose proof (Z.mod_pos_bound h 32768 ltac:(lia)) as MB.
  pose proof W as (Hc & (Hqq & E) & _). assert (h mod 32768 <= ti_cur s) as Hle by lia.
  pose proof (win_written _ _ _ _ (h mod 32768) W ltac:(lia)) as HWr.
  rewrite (win_bytes _ _ _ _ (h mod 32768) W) by lia. replace (h / 32768 * 32768 + h mod 32768) with h by lia.
  pose proof (len_nonneg _ r). rewrite ED. rewrite len_app, ztake_app_exact by reflexivity. rewrite ztake_app_le by lia.
  rewrite ztake_zdrop. split; [lia|]. split; [lia|]. split; [lia|]. split; [lia|]. split; [reflexivity|]. split; [reflexivity|exact HWr].
Qed.
Lemma bits_left_all h F s bits out : st h F s bits out -> ti_in s = [] -> K (len out) <= 61 + 8 * len F.
Proof.
  intros ((Hn & _) & (_ & E & Hl) & _) Hi. unfold ahead in E. rewrite Hi in E. cbn [app] in E.
  rewrite <- E, len_app, lsb_len, bits_of_len in Hl. lia.
Qed.
Lemma bits_left h s bits out : st h [] s bits out -> ti_in s = [] -> K (len out) <= 61.
Proof.
  intros ((Hn & _) & (_ & E & Hl) & _) Hi. unfold ahead in E. rewrite Hi in E. cbn [app bits_of flat_map] in E.
  rewrite app_nil_r in E. rewrite <- E, lsb_len in Hl. lia.
Qed.

(** the four ways one call of mz_inflate can end *)
Definition call_result (h : Z) (F : bytes) (before : bytes) (x : outcome (Z * bytes * bytes * inflate_state)) : Prop :=
  exists ret input1 o is1, x = Ok (ret, input1, o, is1) /\
    ((ret = MZ_STREAM_END /\ before ++ o = D /\ len o <= CHUNK /\ ended is1 /\ 8 * len F <= len more) \/
     ((ret = MZ_OK \/ ret = MZ_BUF_ERROR) /\ len o = CHUNK /\ exists h1, h / 32768 < h1 / 32768 /\ between h1 F is1 input1 /\ fits h1 /\ before ++ o = ztake h1 D) \/
     ((ret = MZ_OK \/ ret = MZ_BUF_ERROR) /\ len o < CHUNK /\ (F = [] -> tight /\ 32768 < len D) /\ exists h1, paused h1 F is1 /\ K h1 <= 61 + 8 * len F /\ before ++ o = ztake h1 D) \/
     (ret = MZ_OK /\ len o = CHUNK /\ F = [] /\ CHUNK <= len D /\ ~ fits h /\ held_back (before ++ o) is1)).

Lemma decompress_eq is input : decompress is input =
  match is_go is (mk_tst input (is_bb is) (is_nb is) (is_dict is) (is_ofs is)) with
  | RDone _ s => Ok (T_DONE, ti_in s, ti_cur s - is_ofs is, mk_inflate (fun s' => RDone tt s') (ti_bb s) (ti_nb s) (ti_dict s) (is_ofs is) (is_avail is) T_DONE)
  | RNeed s k => Ok (T_NEEDS_MORE_INPUT, ti_in s, ti_cur s - is_ofs is, mk_inflate k (ti_bb s) (ti_nb s) (ti_dict s) (is_ofs is) (is_avail is) T_NEEDS_MORE_INPUT)
  | RMore s k => Ok (T_HAS_MORE_OUTPUT, ti_in s, ti_cur s - is_ofs is, mk_inflate k (ti_bb s) (ti_nb s) (ti_dict s) (is_ofs is) (is_avail is) T_HAS_MORE_OUTPUT)
  | RFailed s => Ok (T_FAILED, ti_in s, ti_cur s - is_ofs is, mk_inflate (fun s' => RFailed s') (ti_bb s) (ti_nb s) (ti_dict s) (is_ofs is) (is_avail is) T_FAILED)
  | RUndef u => Undef u
  end.
Proof. reflexivity. Qed.
Lemma between_bound h F is input : between h F is input -> h / 32768 <= Q.
Proof.
  intros (_ & _ & _ & Hh & L). unfold Q. apply Z.div_le_mono; [lia|].
  inversion L as [? ? a s P|? ? s k bits out S ? ? ?|? ? s k bits out S ? ? ?]; subst.
  - destruct (window _ _ _ _ _ P Hh). lia.
  - destruct (window _ _ _ _ _ S Hh). lia.
  - destruct (window _ _ _ _ _ S Hh). lia.
Qed.
(** the position after handing out everything *)
Lemma next_ofs h c : h mod 32768 <= c <= 32768 -> 0 <= h ->
  Z.land (h mod 32768 + (c - h mod 32768)) (TINFL_LZ_DICT_SIZE - 1) = (h + (c - h mod 32768)) mod 32768 /\
  (if c =? 32768 then 0 else c) = (h + (c - h mod 32768)) mod 32768.
Proof.
  intros Hc Hh. pose proof (Z.mod_pos_bound h 32768 ltac:(lia)). pose proof (Z.div_mod h 32768 ltac:(lia)).
  change (TINFL_LZ_DICT_SIZE - 1) with (Z.ones 15). rewrite Z.land_ones by lia. change (2 ^ 15) with 32768.
  replace (h + (c - h mod 32768)) with (c + h / 32768 * 32768) by lia. rewrite Z_mod_plus_full.
  replace (h mod 32768 + (c - h mod 32768)) with c by lia. split; [reflexivity|].
  destruct (c =? 32768) eqn:E; [|rewrite Z.mod_small by lia; reflexivity].
  apply Z.eqb_eq in E. subst. reflexivity.
Qed.
Lemma dict_bytes_split n m d i : dict_bytes (n + m) d i = dict_bytes n d i ++ dict_bytes m d (i + Z.of_nat n).
Proof.
  revert i. induction n as [|n IH]; intros i; cbn [Nat.add dict_bytes app].
  - f_equal. lia.
  - f_equal. rewrite IH. do 2 f_equal. lia.
Qed.
(** when the window does not fit in the output buffer *)
Lemma too_much h0 h s bits out written before turns had go status : ~ fits h0 -> st h [] s bits out -> 0 <= h -> before ++ written = ztake h D ->
  len written < CHUNK -> CHUNK - len written < ti_cur s - h mod 32768 ->
  (status = T_DONE /\ out = D) \/ status = T_HAS_MORE_OUTPUT ->
  call_result h0 [] before
    (let* y := hand_out (mk_inflate go (ti_bb s) (ti_nb s) (ti_dict s) (h mod 32768) (ti_cur s - h mod 32768) status) (CHUNK - len written) in
      let (o, st2) := y in
      let avail_out1 := CHUNK - len written - len o in
      let written1 := written ++ o in
      if tstatus_eqb status T_FAILED then Ok (MZ_DATA_ERROR, ti_in s, written1, st2)
      else if tstatus_eqb status T_NEEDS_MORE_INPUT && negb had
           then Ok (MZ_BUF_ERROR, ti_in s, written1, st2)
      else if tstatus_eqb status T_DONE || (match ti_in s with [] => true | _ => false end)
              || (avail_out1 =? 0) || negb (is_avail st2 =? 0)
           then Ok (if tstatus_eqb status T_DONE && (is_avail st2 =? 0) then MZ_STREAM_END
                    else MZ_OK, ti_in s, written1, st2)
      else inflate_loop turns st2 had (ti_in s) avail_out1 written1).
Proof.
  intros HN S Hh Eb Hw Hgt Hst. destruct (window _ _ _ _ _ S Hh) as (Hcur & El & HlD & _ & Eo & ED & HWr).
  pose proof (Z.mod_pos_bound h 32768 ltac:(lia)) as MB.
  rewrite (hand_out_ok _ _ (ti_cur s)) by (cbn [is_dict is_ofs is_avail]; (exact HWr || lia)).
    unfold handed_out. cbn [obind is_go is_bb is_nb is_dict is_ofs is_last is_avail].
  set (n := CHUNK - len written) in *. set (m := ti_cur s - h mod 32768) in *.
  assert (0 < n) as Hn by (unfold n; lia). assert (m <= 32768 - h mod 32768) as Hm by (unfold m; lia).
  rewrite !(Z.min_r m n) by lia.
  assert (Z.land (h mod 32768 + n) (TINFL_LZ_DICT_SIZE - 1) = h mod 32768 + n) as ->.
  { change (TINFL_LZ_DICT_SIZE - 1) with (Z.ones 15). rewrite Z.land_ones by lia. change (2 ^ 15) with 32768. apply Z.mod_small. lia. }
  rewrite dict_bytes_len. assert ((n - Z.of_nat (Z.to_nat n) =? 0) = true) as -> by (apply Z.eqb_eq; rewrite Z2Nat.id; lia). rewrite orb_true_r. cbn [orb].
  replace (tstatus_eqb status T_FAILED) with false by (destruct Hst as [[-> _]| ->]; reflexivity).
  replace (tstatus_eqb status T_NEEDS_MORE_INPUT && negb had) with false by (destruct Hst as [[-> _]| ->]; reflexivity).
  assert ((m - n =? 0) = false) as -> by (apply Z.eqb_neq; lia). rewrite andb_false_r.
  eexists _, _, _, _. split; [reflexivity|].
  right. right. right. split; [reflexivity|].
  split; [rewrite len_app, dict_bytes_len; lia|]. split; [reflexivity|].
  assert (len written <= h) as Hwh.
  { apply (f_equal len) in Eb. rewrite len_app, len_ztake in Eb. pose proof (len_nonneg _ before). lia. }
  split; [lia|]. split; [exact HN|].
  split; [cbn [is_avail]; lia|]. split; [cbn [is_last]; destruct Hst as [[-> _]| ->]; discriminate|].
  cbn [is_last is_avail is_dict is_ofs]. split; [|intros i Hi; apply HWr; lia]. intros ->. destruct Hst as [[_ ->]|H]; [|discriminate].
  rewrite ztake_all in ED by lia. etransitivity; [|symmetry; exact ED]. rewrite <- Eb, <- !app_assoc. do 2 f_equal.
  replace (Z.to_nat m) with (Z.to_nat n + Z.to_nat (m - n))%nat by lia. rewrite dict_bytes_split. do 2 f_equal. lia.
Qed.
Lemma loop_ok : forall turns h0 h F is had input written before,
  Q < Z.of_nat turns + h / 32768 -> between h F is input -> fits h \/ F = [] -> h0 / 32768 <= h / 32768 ->
  len written < CHUNK -> (fits h0 -> fits h /\ (len D < CHUNK \/ len written mod 32768 = 0)) ->
  (len D < CHUNK \/ len written mod 32768 = 0 \/ F = []) -> before ++ written = ztake h D ->
  call_result h0 F before (inflate_loop turns is had input (CHUNK - len written) written).
Proof.
  induction turns as [|turns IH]; intros h0 h F is had input written before Ht B HF Eq Hw Hft Hw2 Eb.
  { exfalso. pose proof (between_bound _ _ _ _ B). lia. }
  destruct B as (Ho & Ha & Hl & Hh & L).
  cbn [inflate_loop]. rewrite decompress_eq, Ho. rewrite Ho in L.
  assert (len written <= h) as Hwh.
  { apply (f_equal len) in Eb. rewrite len_app, len_ztake in Eb. pose proof (len_nonneg _ before). lia. }
  assert (forall F' s bits out, st h F' s bits out ->
    ti_cur s - h mod 32768 <= CHUNK - len written \/ (F = [] /\ ~ fits h0 /\ CHUNK - len written < ti_cur s - h mod 32768)) as HR.
  { intros F' s bits out S. destruct (window _ _ _ _ _ S Hh) as (Hc & El & HlD & _ & _ & ED & HWr).
    destruct (Z.le_gt_cases (ti_cur s - h mod 32768) (CHUNK - len written)) as [H|H]; [now left|]. right.
    pose proof (Z.mod_pos_bound h 32768 ltac:(lia)) as MB.
    assert (fits h -> len D < CHUNK \/ len written mod 32768 = 0 -> False) as HH.
    { intros [HF1|HF1] [Hw1|Hw1]; try lia. rewrite HF1 in *.
      pose proof (Z.div_mod (len written) 32768 ltac:(lia)). unfold CHUNK in *. lia. }
    split; [|split; [|lia]].
    - destruct Hw2 as [Hw2|[Hw2|Hw2]]; [lia| |exact Hw2]. destruct HF as [HF|HF]; [exfalso; auto|exact HF].
    - intros H0. destruct (Hft H0). auto. }
  inversion L as [? ? a s P E0 E1 Er|? ? s k bits out S Hp Hc L1 E0 E1 Er|? ? s k bits out S Hi HF0 L1 E0 E1 Er]; subst.
  - cbn [obind]. cbn [is_go is_bb is_nb is_dict is_ofs is_last].
    destruct (window _ _ _ _ _ P Hh) as (Hcur & El & _ & _ & _ & ED & HWr). destruct (HR _ _ _ _ P) as [HR1|(-> & HR0 & HR1)].
    2:{ eapply too_much; eauto. }
    clear HR. rename HR1 into HR.
    rewrite (hand_out_ok _ _ (ti_cur s)) by (cbn [is_dict is_ofs is_avail]; (exact HWr || lia)).
    unfold handed_out. cbn [obind is_go is_bb is_nb is_dict is_ofs is_last is_avail].
    rewrite !(Z.min_l _ _ HR).
    change (tstatus_eqb T_DONE T_FAILED) with false. change (tstatus_eqb T_DONE T_NEEDS_MORE_INPUT) with false.
    change (tstatus_eqb T_DONE T_DONE) with true. cbn [andb orb]. rewrite Z.sub_diag. cbn [Z.eqb negb].
    eexists _, _, _, _. split; [reflexivity|]. left. split; [reflexivity|]. split; [|split; [|split]].
    + rewrite app_assoc, Eb, <- ED. rewrite ztake_all by lia. reflexivity.
    + rewrite len_app, dict_bytes_len. lia.
    + split; [reflexivity|]. split; reflexivity.
    + destruct P as (_ & (_ & Ea & _) & _). rewrite <- Ea. unfold ahead. rewrite bits_of_app, !len_app, !bits_of_len.
      pose proof (len_nonneg _ (lsb_bits (Z.to_nat (ti_nb s)) (ti_bb s))). pose proof (len_nonneg _ (ti_in s)). lia.
  - cbn [obind]. cbn [is_go is_bb is_nb is_dict is_ofs is_last].
    destruct (window _ _ _ _ _ S Hh) as (Hcur & El & HlD & Hho & _ & ED & HWr). destruct (HR _ _ _ _ S) as [HR1|(-> & HR0 & HR1)].
    2:{ eapply too_much; eauto. }
    clear HR. rename HR1 into HR.
    destruct (next_ofs h (ti_cur s) Hcur Hh) as [No _]. rewrite <- El in No.
    rewrite (hand_out_ok _ _ (ti_cur s)) by (cbn [is_dict is_ofs is_avail]; (exact HWr || lia)).
    unfold handed_out. cbn [obind is_go is_bb is_nb is_dict is_ofs is_last is_avail].
    rewrite !(Z.min_l _ _ HR), No, Z.sub_diag.
    change (tstatus_eqb T_HAS_MORE_OUTPUT T_FAILED) with false. change (tstatus_eqb T_HAS_MORE_OUTPUT T_NEEDS_MORE_INPUT) with false.
    change (tstatus_eqb T_HAS_MORE_OUTPUT T_DONE) with false. cbn [andb orb]. change (negb (0 =? 0)) with false. rewrite orb_false_r.
    set (o := dict_bytes (Z.to_nat (ti_cur s - h mod 32768)) (ti_dict s) (h mod 32768)) in *.
    assert (len o = ti_cur s - h mod 32768) as Elo by (unfold o; rewrite dict_bytes_len; lia).
    assert (len out mod 32768 = 0 /\ len out / 32768 = h / 32768 + 1) as [M0 D1].
    { pose proof (Z.div_mod h 32768 ltac:(lia)). replace (len out) with ((h / 32768 + 1) * 32768) by lia.
      split; [apply Z_mod_mult|apply Z_div_mult; lia]. }
    rewrite M0 in *.
    assert (forall c F', F = c ++ F' -> between (len out) F' (mk_inflate k (ti_bb s) (ti_nb s) (ti_dict s) 0 0 T_HAS_MORE_OUTPUT) (ti_in s ++ c)) as Bn.
    { intros c F' EF. split; [cbn [is_ofs]; now rewrite M0|]. split; [reflexivity|]. split; [discriminate|]. split; [lia|]. exact (L1 c F' EF). }
    assert (before ++ written ++ o = ztake (len out) D) as Eb1 by (rewrite ED, app_assoc, Eb; reflexivity).
    assert (between (len out) F (mk_inflate k (ti_bb s) (ti_nb s) (ti_dict s) 0 0 T_HAS_MORE_OUTPUT) (ti_in s)) as Bn0.
    { specialize (Bn [] F eq_refl). now rewrite app_nil_r in Bn. }
    assert (fits (len out)) as HF1 by (left; exact M0).
    rewrite Elo.
    destruct (CHUNK - len written - (ti_cur s - h mod 32768) =? 0) eqn:Ez.
    + rewrite orb_true_r. eexists _, _, _, _. split; [reflexivity|]. right. left. split; [now left|].
      split; [rewrite len_app; lia|].
      exists (len out). split; [lia|]. auto.
    + rewrite orb_false_r. destruct (ti_in s) as [|x t] eqn:Ei.
      * eexists _, _, _, _. split; [reflexivity|]. right. right. left. split; [now left|]. split; [rewrite len_app; lia|].
        split.
        { intros ->. pose proof (bits_left _ _ _ _ S Ei) as HK.
          assert (0 < len out) as H0 by (pose proof (Z.mod_pos_bound h 32768 ltac:(lia)); pose proof (Z.mod_le h 32768 ltac:(lia) ltac:(lia)); lia).
          split; [exists (len out); auto|]. pose proof (Z.mod_pos_bound h 32768 ltac:(lia)). pose proof (Z.mod_le h 32768 ltac:(lia) ltac:(lia)). lia. }
        exists (len out). split; [|split; [exact (bits_left_all _ _ _ _ _ S Ei)|exact Eb1]]. split; [lia|]. intros c F' EF _. exact (Bn c F' EF).
      * replace (CHUNK - len written - (ti_cur s - h mod 32768)) with (CHUNK - len (written ++ o)) by (rewrite len_app; lia).
        eapply (IH h0 (len out) F); try lia; auto.
        -- rewrite len_app. lia.
        -- intros H0. split; [exact HF1|]. destruct (Hft H0) as [[HF2|HF2] [Hw1|Hw1]]; auto. right.
           rewrite len_app, Elo, HF2, Hc, Zplus_mod, Hw1. reflexivity.
        -- destruct Hw2 as [Hw2|[Hw2|Hw2]]; [now left| |right; now right]. destruct HF as [[HF|HF]|HF]; [|now left|right; now right]. right. left.
           rewrite len_app, Elo, HF, Hc, Zplus_mod, Hw2. reflexivity.
  - cbn [obind]. cbn [is_go is_bb is_nb is_dict is_ofs is_last].
    destruct HF as [HF|HF]; [|congruence].
    destruct (window _ _ _ _ _ S Hh) as (Hcur & El & HlD & Hho & _ & ED & HWr). destruct (HR _ _ _ _ S) as [HR1|(HR1 & _)]; [|congruence].
    clear HR. rename HR1 into HR.
    destruct (next_ofs h (ti_cur s) Hcur Hh) as [No Nc]. rewrite <- El in No, Nc.
    rewrite (hand_out_ok _ _ (ti_cur s)) by (cbn [is_dict is_ofs is_avail]; (exact HWr || lia)).
    unfold handed_out. cbn [obind is_go is_bb is_nb is_dict is_ofs is_last is_avail].
    rewrite !(Z.min_l _ _ HR), No, Z.sub_diag.
    change (tstatus_eqb T_NEEDS_MORE_INPUT T_FAILED) with false. change (tstatus_eqb T_NEEDS_MORE_INPUT T_NEEDS_MORE_INPUT) with true.
    change (tstatus_eqb T_NEEDS_MORE_INPUT T_DONE) with false. cbn [andb orb negb]. change (negb (0 =? 0)) with false. rewrite Hi. cbn [orb].
    set (o := dict_bytes (Z.to_nat (ti_cur s - h mod 32768)) (ti_dict s) (h mod 32768)) in *.
    assert (len o = ti_cur s - h mod 32768) as Elo by (unfold o; rewrite dict_bytes_len; lia).
    assert (before ++ written ++ o = ztake (len out) D) as Eb1 by (rewrite ED, app_assoc, Eb; reflexivity).
    assert (forall c F', F = c ++ F' -> c <> [] \/ ti_cur s = 32768 ->
      between (len out) F' (mk_inflate k (ti_bb s) (ti_nb s) (ti_dict s) (len out mod 32768) 0 T_NEEDS_MORE_INPUT) c) as Bn.
    { intros c F' EF Hc. split; [reflexivity|]. split; [reflexivity|]. split; [discriminate|]. split; [lia|].
      cbn [is_go is_bb is_nb is_dict is_ofs]. rewrite <- Nc. exact (L1 c F' EF Hc). }
    destruct (Z.eq_dec (len (written ++ o)) CHUNK) as [Efull|Enot].
    + (* the chunk of input and the output buffer end together *)
      assert (ti_cur s = 32768 /\ h mod 32768 = 0) as [Ecur M0].
      { rewrite len_app in Efull. destruct HF as [HF|HF].
        - destruct Hw2 as [Hw2|[Hw2|Hw2]]; [|split; [|exact HF]|congruence].
          + exfalso. apply (f_equal len) in Eb1. rewrite !len_app, len_ztake in Eb1. pose proof (len_nonneg _ before). lia.
          + pose proof (Z.div_mod (len written) 32768 ltac:(lia)). unfold CHUNK in *. lia.
        - exfalso. apply (f_equal len) in Eb1. rewrite !len_app, len_ztake in Eb1. pose proof (len_nonneg _ before). lia. }
      assert (len out / 32768 = h / 32768 + 1 /\ len out mod 32768 = 0) as [D1 M1].
      { pose proof (Z.div_mod h 32768 ltac:(lia)). replace (len out) with ((h / 32768 + 1) * 32768) by lia.
        split; [apply Z_div_mult; lia|apply Z_mod_mult]. }
      destruct had; cbn [negb].
      * eexists _, _, _, _. split; [reflexivity|]. right. left. split; [now left|]. split; [exact Efull|].
        exists (len out). split; [lia|]. split; [|split; [left; exact M1|exact Eb1]]. apply Bn; [reflexivity|now right].
      * eexists _, _, _, _. split; [reflexivity|]. right. left. split; [now right|]. split; [exact Efull|].
        exists (len out). split; [lia|]. split; [|split; [left; exact M1|exact Eb1]]. apply Bn; [reflexivity|now right].
    + assert (len (written ++ o) < CHUNK) as Hlt by (rewrite len_app in *; lia).
      assert (paused (len out) F (mk_inflate k (ti_bb s) (ti_nb s) (ti_dict s) (len out mod 32768) 0 T_NEEDS_MORE_INPUT)) as HP.
      { split; [lia|]. intros c F' EF Hc. apply Bn; auto. }
      destruct had; cbn [negb].
      * eexists _, _, _, _. split; [reflexivity|]. right. right. left. split; [now left|]. split; [exact Hlt|].
        split; [congruence|]. exists (len out). split; [exact HP|]. split; [exact (bits_left_all _ _ _ _ _ S Hi)|exact Eb1].
      * eexists _, _, _, _. split; [reflexivity|]. right. right. left. split; [now right|]. split; [exact Hlt|].
        split; [congruence|]. exists (len out). split; [exact HP|]. split; [exact (bits_left_all _ _ _ _ _ S Hi)|exact Eb1].
Qed.
Lemma not_failed is : is_last is <> T_FAILED -> tstatus_eqb (is_last is) T_FAILED = false.
Proof. destruct (is_last is); intros H; try reflexivity. congruence. Qed.
Lemma call_ok turns h F is input before : Q < Z.of_nat turns + h / 32768 -> between h F is input -> fits h \/ F = [] ->
  before = ztake h D -> call_result h F before (mz_inflate turns is input CHUNK).
Proof.
  intros Ht B HF Eb. unfold mz_inflate. pose proof B as (Ho & Ha & Hl & HB). rewrite (not_failed _ Hl), Ha. cbn [Z.eqb negb].
  change CHUNK with (CHUNK - len (@nil Z)). eapply (loop_ok turns h h); try lia; auto.
  - rewrite len_nil. unfold CHUNK. lia.
  - rewrite app_nil_r. exact Eb.
Qed.
Lemma call_ended turns is input : ended is -> (1 <= turns)%nat ->
  exists i is1, mz_inflate turns is input CHUNK = Ok (MZ_STREAM_END, i, [], is1).
Proof.
  intros (Eg & Ea & El) Ht. unfold mz_inflate. rewrite El, Ea. cbn [tstatus_eqb Z.eqb negb].
  destruct turns as [|turns]; [lia|]. cbn [inflate_loop]. unfold decompress. rewrite Eg. cbn [obind ti_in ti_cur].
  rewrite Z.sub_diag. rewrite hand_out_none by (cbn [is_avail]; unfold CHUNK; lia). unfold handed_out. cbn [obind is_go is_bb is_nb is_dict is_ofs is_last is_avail].
  change (Z.min 0 CHUNK) with 0. cbn [Z.to_nat dict_bytes]. cbn [tstatus_eqb andb orb]. change (0 - 0 =? 0) with true. cbn [app negb].
  eexists _, _. reflexivity.
Qed.
Lemma handed h F is input : between h F is input -> h <= len D.
Proof.
  intros (_ & _ & _ & Hh & L). inversion L as [? ? a s P|? ? s k bits out S ? ? ?|? ? s k bits out S ? ? ?]; subst.
  - destruct (window _ _ _ _ _ P Hh). lia.
  - destruct (window _ _ _ _ _ S Hh). lia.
  - destruct (window _ _ _ _ _ S Hh). lia.
Qed.
(** one chunk of input *)
Lemma chunk_ok : forall turns loops h F is input output,
  Q + 1 < Z.of_nat turns + h / 32768 -> Q < Z.of_nat loops -> between h F is input -> fits h \/ F = [] ->
  output = ztake h D ->
  exists ret out is1, inflate_chunk turns loops is input output = Ok (ret, out, is1) /\
    ((ret = MZ_STREAM_END /\ out = D /\ 8 * len F <= len more) \/
     (ret <> MZ_STREAM_END /\ (F = [] -> 32768 < len D /\ (tight \/ CHUNK <= len D /\ ~ fits h)) /\
      (F <> [] -> exists h1, paused h1 F is1 /\ K h1 <= 61 + 8 * len F /\ out = ztake h1 D))).
Proof.
  induction turns as [|turns IH]; intros loops h F is input output Ht Hl B HF Eo.
  { exfalso. pose proof (between_bound _ _ _ _ B). lia. }
  pose proof (between_bound _ _ _ _ B) as HQ.
  cbn [inflate_chunk]. assert (0 <= h) as Hh by apply B.
  assert (0 <= h / 32768) as Hh2 by (apply Z.div_pos; lia).
  pose proof (handed _ _ _ _ B) as HhD.
  assert (forall o, ztake h D ++ o = D -> CHUNK <= len o -> h / 32768 + 1 <= Q) as HQ1.
  { intros o E Ho. unfold Q. rewrite <- E, len_app, len_ztake. replace (Z.max 0 (Z.min h (len D)) + len o) with (h + 1 * 32768 + (len o - 32768)) by lia.
    transitivity ((h + 1 * 32768) / 32768); [rewrite Z.div_add by lia; lia|]. apply Z.div_le_mono; unfold CHUNK in *; lia. }
  destruct (call_ok loops h F is input output) as (ret & input1 & o & is1 & E & C); [lia|exact B|exact HF|exact Eo|].
  rewrite E. cbn [obind]. destruct C as [(-> & ED & Hlo & En & Hmr)|[(Hret & Hlo & h1 & Hq1 & B1 & HF1 & ED)|[(Hret & Hlo & HK & h1 & HP & HKb & ED)|(-> & Hlo & -> & HlD & HNF & HB)]]].
  - change (MZ_STREAM_END =? MZ_DATA_ERROR) with false.
    destruct (CHUNK - len o =? 0) eqn:Ez.
    + destruct turns as [|turns].
      { exfalso. rewrite Eo in ED. specialize (HQ1 o ED). lia. }
      cbn [inflate_chunk]. destruct (call_ended loops is1 input1 En) as (i & is2 & E2); [unfold Q in Hl; pose proof (Z.div_pos (len D) 32768 (len_nonneg _ D) ltac:(lia)); lia|].
      rewrite E2. cbn [obind]. change (MZ_STREAM_END =? MZ_DATA_ERROR) with false. change (CHUNK - len (@nil Z) =? 0) with false. cbv iota.
      eexists _, _, _. split; [reflexivity|]. left. split; [reflexivity|]. split; [rewrite app_nil_r; exact ED|exact Hmr].
    + eexists _, _, _. split; [reflexivity|]. left. auto.
  - replace (ret =? MZ_DATA_ERROR) with false by (destruct Hret as [-> | ->]; reflexivity). rewrite Hlo, Z.sub_diag. cbn [Z.eqb].
    destruct (IH loops h1 F is1 input1 (output ++ o)) as (ret2 & out2 & is2 & E2 & C2); auto; [lia|].
    eexists _, _, _. split; [exact E2|]. destruct C2 as [C2|(C2 & C3 & C4)]; [now left|]. right. split; [exact C2|]. split; [|exact C4].
    intros HF0. destruct (C3 HF0) as (C5 & [C6|(_ & C6)]); [auto|contradiction].
  - replace (ret =? MZ_DATA_ERROR) with false by (destruct Hret as [-> | ->]; reflexivity). replace (CHUNK - len o =? 0) with false by lia.
    eexists _, _, _. split; [reflexivity|]. right. split; [destruct Hret as [-> | ->]; discriminate|]. split; [|intros _; exists h1; auto].
    intros HF0. destruct (HK HF0). auto.
  - change (MZ_OK =? MZ_DATA_ERROR) with false. rewrite Hlo, Z.sub_diag. cbn [Z.eqb].
    destruct HB as (Ha & Hnf & HD & HWr). destruct turns as [|turns]; [exfalso; lia|].
    cbn [inflate_chunk]. unfold mz_inflate. rewrite (not_failed _ Hnf). replace (is_avail is1 =? 0) with false by lia. cbn [negb].
    rewrite (hand_out_ok _ _ (is_ofs is1 + is_avail is1)) by (exact HWr || unfold CHUNK; lia).
    unfold handed_out. rewrite !(Z.min_l (is_avail is1) CHUNK) by (unfold CHUNK; lia). cbn [is_last is_avail obind].
    rewrite Z.sub_diag. change (0 =? 0) with true. rewrite andb_true_r, dict_bytes_len.
    assert ((CHUNK - Z.of_nat (Z.to_nat (is_avail is1)) =? 0) = false) as -> by (apply Z.eqb_neq; rewrite Z2Nat.id by lia; unfold CHUNK; lia).
    destruct (tstatus_eqb (is_last is1) T_DONE) eqn:El.
    + change (MZ_STREAM_END =? MZ_DATA_ERROR) with false. eexists _, _, _. split; [reflexivity|]. left. split; [reflexivity|].
      split; [rewrite HD; [reflexivity|]; destruct (is_last is1); (reflexivity || discriminate)|rewrite len_nil; pose proof (len_nonneg _ more); lia].
    + change (MZ_OK =? MZ_DATA_ERROR) with false. eexists _, _, _. split; [reflexivity|]. right. split; [discriminate|]. split; [|congruence].
      intros _. split; [unfold CHUNK in *; lia|]. right. split; [exact HlD|]. exact HNF.
Qed.
(** all chunks *)
Lemma chunks_ok : forall turns loops h is ret z output, z <> [] -> len z <= Z.of_nat turns ->
  Q + 1 < Z.of_nat loops -> paused h z is -> output = ztake h D ->
  (len D < CHUNK \/ len z <= CHUNK \/ (len z <= 2 * CHUNK /\ h = 0)) ->
  inflate_chunks turns loops is ret z output = Ok D \/
  (inflate_chunks turns loops is ret z output = Throw RuntimeError /\ 32768 < len D /\
   (tight \/ CHUNK <= len D /\ (CHUNK < len z \/ h <> 0))).
Proof.
  induction turns as [|turns IH]; intros loops h is ret z output Hz Ht Hl HP Eo HC.
  { exfalso. destruct z as [|x l]; [congruence|]. rewrite len_cons in Ht. pose proof (len_nonneg _ l). lia. }
  assert (1 <= len z) as Hz1 by (destruct z as [|x l]; [congruence|rewrite len_cons; pose proof (len_nonneg _ l); lia]).
  assert (inflate_chunks (S turns) loops is ret z output =
    let* x := inflate_chunk loops loops is (ztake CHUNK z) output in
          let '(ret1, output1, st1) := x in
          if ret1 =? MZ_STREAM_END then Ok output1
          else inflate_chunks turns loops st1 ret1 (zdrop CHUNK z) output1) as ->.
  { destruct z; [congruence|reflexivity]. }
  assert (ztake CHUNK z <> []) as Hc.
  { intros E. apply (f_equal len) in E. rewrite len_ztake, len_nil in E. unfold CHUNK in E. lia. }
  destruct HP as [Hh HP]. assert (0 <= h / 32768) as Hh2 by (apply Z.div_pos; lia).
  destruct (chunk_ok loops loops h (zdrop CHUNK z) is (ztake CHUNK z) output) as (ret1 & out & is1 & E & C); auto; try lia.
  { apply HP; [symmetry; apply ztake_zdrop|exact Hc]. }
  { destruct HC as [HC|[HC|[HC ->]]]; [left; now right|right; apply zdrop_all; exact HC|left; left; reflexivity]. }
  rewrite E. cbn [obind]. destruct C as [(-> & -> & _)|(Hr & HK & HP1)].
  - left. reflexivity.
  - apply Z.eqb_neq in Hr. rewrite Hr.
    destruct (zdrop CHUNK z) as [|x t] eqn:Ed.
    + right. split; [destruct turns; cbn [inflate_chunks]; rewrite Hr; reflexivity|]. destruct (HK eq_refl) as (H1 & [H2|(H2 & H3)]); split; auto.
      right. split; [exact H2|]. right. intros ->. apply H3. left. reflexivity.
    + rewrite <- Ed in *. assert (CHUNK < len z) as HzC.
      { destruct (Z.le_gt_cases (len z) CHUNK) as [H|H]; [|exact H]. rewrite zdrop_all in Ed by exact H. discriminate. }
      destruct (HP1 ltac:(congruence)) as (h1 & HP2 & _ & ->).
      destruct (IH loops h1 is1 ret1 (zdrop CHUNK z) (ztake h1 D)) as [H|(H & H1 & H2)]; auto.
      * congruence.
      * rewrite len_zdrop. unfold CHUNK in *. lia.
      * rewrite len_zdrop. destruct HC as [HC|[HC|[HC _]]]; [now left|lia|right; left; lia].
      * right. split; [exact H|]. split; [exact H1|]. destruct H2 as [H2|(H2 & _)]; [now left|]. right. auto.
Qed.
(** input that stops before the stream does *)
Lemma chunks_short : forall turns loops h is ret z F output, len z <= Z.of_nat turns ->
  Q + 1 < Z.of_nat loops -> paused h (z ++ F) is -> output = ztake h D ->
  len more < 8 * len F -> ret <> MZ_STREAM_END -> (len D < CHUNK \/ len z <= CHUNK /\ h = 0) ->
  inflate_chunks turns loops is ret z output = Throw RuntimeError.
Proof.
  induction turns as [|turns IH]; intros loops h is ret z F output Ht Hl HP Eo HF Hret HC;
    (destruct (Z.eq_dec (len z) 0) as [Hz0|Hz0]; [rewrite (len_0_nil _ _ Hz0); cbn [inflate_chunks]; apply Z.eqb_neq in Hret; now rewrite Hret|]);
    pose proof (len_nonneg _ z) as Hz1; [lia|].
  assert (z <> []) as Hz by (intros ->; rewrite len_nil in Hz0; lia).
  assert (inflate_chunks (S turns) loops is ret z output =
    let* x := inflate_chunk loops loops is (ztake CHUNK z) output in
          let '(ret1, output1, st1) := x in
          if ret1 =? MZ_STREAM_END then Ok output1
          else inflate_chunks turns loops st1 ret1 (zdrop CHUNK z) output1) as ->.
  { destruct z; [congruence|reflexivity]. }
  assert (ztake CHUNK z <> []) as Hc.
  { intros E. apply (f_equal len) in E. rewrite len_ztake, len_nil in E. unfold CHUNK in E. lia. }
  destruct HP as [Hh HP]. assert (0 <= h / 32768) as Hh2 by (apply Z.div_pos; lia).
  destruct (chunk_ok loops loops h (zdrop CHUNK z ++ F) is (ztake CHUNK z) output) as (ret1 & out & is1 & E & C); auto; try lia.
  { apply HP; [rewrite app_assoc, ztake_zdrop; reflexivity|exact Hc]. }
  { destruct HC as [HC|[HC ->]]; left; [now right|now left]. }
  rewrite E. cbn [obind]. destruct C as [(-> & -> & Hm)|(Hr & _ & HP1)].
  - exfalso. rewrite len_app in Hm. pose proof (len_nonneg _ (zdrop CHUNK z)). lia.
  - pose proof Hr as Hr2. apply Z.eqb_neq in Hr2. rewrite Hr2.
    destruct HP1 as (h1 & HP1 & _ & ->).
    { intros EE. apply (f_equal len) in EE. rewrite len_app, len_nil in EE. pose proof (len_nonneg _ (zdrop CHUNK z)). pose proof (len_nonneg _ more). lia. }
    destruct HC as [HC|[HC ->]].
    + eapply IH; eauto. rewrite len_zdrop. unfold CHUNK in *. lia.
    + rewrite zdrop_all by exact HC. destruct turns; cbn [inflate_chunks]; now rewrite Hr2.
Qed.
End Top.

Definition left_after (D : bytes) (more : list bool) (n : Z) : Z := len more + Z.max 0 ((len D - n - 131) / 129).
Lemma left_after_slow D more : slow (left_after D more).
Proof.
  unfold left_after. split.
  - intros a b H. assert ((len D - b - 131) / 129 <= (len D - a - 131) / 129) by (apply Z.div_le_mono; lia). lia.
  - intros a d j [H1 H2].
    assert ((len D - a - 131) / 129 <= (len D - (a + d) - 131) / 129 + j); [|lia].
    rewrite <- Z.div_add by lia. apply Z.div_le_mono; lia.
Qed.
Lemma left_after_end D more : left_after D more (len D - 259) = len more.
Proof. unfold left_after. replace (len D - (len D - 259) - 131) with 128 by lia. change (128 / 129) with 0. lia. Qed.
Lemma left_after_tight D more n : left_after D more n <= 61 -> len more < 64 /\ len D - n <= 8128.
Proof.
  unfold left_after. intros H. pose proof (len_nonneg _ more). split; [lia|].
  assert ((len D - n - 131) / 129 <= 61) as H1 by lia. pose proof (Z.div_mod (len D - n - 131) 129 ltac:(lia)).
  pose proof (Z.mod_pos_bound (len D - n - 131) 129 ltac:(lia)). lia.
Qed.
Lemma left_after_start D more bits : len D <= 0 + 129 * len bits -> left_after D more (len (@nil Z)) <= len (bits ++ more).
Proof.
  intros H. unfold left_after. rewrite len_app, len_nil. pose proof (len_nonneg _ bits).
  assert ((len D - 0 - 131) / 129 <= len bits) by (apply Z.div_le_upper_bound; lia). lia.
Qed.
(** npy_inflate on a stream followed by [more] bits *)
Theorem npy_inflate_ok z D bits more : bytes_ok z -> bits_of z = bits ++ more -> stream_bits 0 [] bits D ->
  (len D < CHUNK \/ len z <= 2 * CHUNK) ->
  npy_inflate z = Ok D \/
  (npy_inflate z = Throw RuntimeError /\ 32768 < len D /\
    ((len more < 64 /\ exists n, n mod 32768 = 0 /\ 0 < n < len D /\ len D - n <= 8128) \/ CHUNK <= len D /\ CHUNK < len z)).
Proof.
  intros Hz E HS HC. pose proof (stream_slow _ _ _ _ HS) as HG. rewrite len_nil in HG.
  assert (len bits + len more = 8 * len z) as El by (rewrite <- bits_of_len, E, len_app; reflexivity).
  pose proof (len_nonneg _ bits) as Hb. pose proof (len_nonneg _ more) as Hm.
  assert (1 <= len bits) as Hb1.
  { destruct HS; rewrite len_cons; [pose proof (len_nonneg _ b)|pose proof (len_nonneg _ (b ++ bs))]; lia. }
  set (fuel := inflate_fuel z). assert (Z.of_nat fuel = 8 * len z + 16) as Ef by (unfold fuel, inflate_fuel, len; lia).
  assert (Q D <= 8 * len z) as HQ.
  { unfold Q. apply Z.div_le_upper_bound; lia. }
  assert (0 <= Q D) as HQ0 by (apply Z.div_pos; [apply len_nonneg|lia]).
  assert (paused D (left_after D more) more 0 z (new_inflate fuel)) as B.
  { split; [lia|]. intros c F' -> Hc. apply bytes_ok_app in Hz. destruct Hz as [Hz1 Hz2].
    split; [reflexivity|]. split; [reflexivity|]. split; [discriminate|]. split; [lia|].
    unfold new_inflate. cbn [is_go is_bb is_nb is_dict is_ofs].
    apply (blocks_ok D (left_after D more) (left_after_slow D more) fuel ltac:(lia) fuel 0 [] bits D HS fuel 0 _ _ more).
    - rewrite left_after_end. lia.
    - split; [|split; [split; [|split]|split; [|split]]].
      + split; [cbn; lia|]. split; [cbn; lia|]. exact Hz1.
      + exact Hz2.
      + unfold ahead. cbn [ti_nb ti_bb ti_in Z.to_nat lsb_bits app]. exact E.
      + apply left_after_start. exact HG.
      + split; [cbn; lia|]. split; [cbn; lia|]. intros i Hi. rewrite len_nil in Hi. lia.
      + exists D. reflexivity.
      + rewrite len_nil. lia.
    - rewrite Z.add_0_l, len_app, El. rewrite Z.mul_comm. apply Z_mod_mult.
    - apply prefix_refl.
    - unfold len in *. lia.
    - unfold len in *. lia. }
  unfold npy_inflate, npy_inflate_upto. fold fuel.
  destruct (chunks_ok D (left_after D more) more fuel fuel 0 (new_inflate fuel) MZ_OK z []) as [H|(H & H1 & H2)]; auto; try lia.
  - intros ->. rewrite len_nil in El. lia.
  - rewrite ztake_0 by lia. reflexivity.
  - right. split; [exact H|]. split; [exact H1|]. destruct H2 as [(n & H2 & H3 & H4)|(H2 & [H3|H3])]; [|right; auto|congruence].
    left. apply left_after_tight in H4. destruct H4. split; [assumption|]. exists n. auto.
Qed.

(** npy_inflate on a proper prefix of a stream *)
Theorem npy_inflate_short z F D bits more : bytes_ok (z ++ F) -> bits_of (z ++ F) = bits ++ more -> stream_bits 0 [] bits D ->
  len more < 8 * len F -> (len D < CHUNK \/ len z <= CHUNK) ->
  forall fuel, 8 * len (z ++ F) + 16 <= Z.of_nat fuel -> npy_inflate_upto fuel z = Throw RuntimeError.
Proof.
  intros Hz E HS HF HC fuel Ef. pose proof (stream_slow _ _ _ _ HS) as HG. rewrite len_nil in HG.
  assert (len bits + len more = 8 * len (z ++ F)) as El by (rewrite <- bits_of_len, E, len_app; reflexivity).
  pose proof (len_nonneg _ bits) as Hb. pose proof (len_nonneg _ more) as Hm.
  assert (Q D <= 8 * len (z ++ F)) as HQ.
  { unfold Q. apply Z.div_le_upper_bound; lia. }
  assert (0 <= Q D) as HQ0 by (apply Z.div_pos; [apply len_nonneg|lia]).
  assert (paused D (left_after D more) more 0 (z ++ F) (new_inflate fuel)) as B.
  { split; [lia|]. intros c F' EF Hc. rewrite EF in *. apply bytes_ok_app in Hz. destruct Hz as [Hz1 Hz2].
    split; [reflexivity|]. split; [reflexivity|]. split; [discriminate|]. split; [lia|].
    unfold new_inflate. cbn [is_go is_bb is_nb is_dict is_ofs].
    apply (blocks_ok D (left_after D more) (left_after_slow D more) fuel ltac:(lia) fuel 0 [] bits D HS fuel 0 _ _ more).
    - rewrite left_after_end. lia.
    - split; [|split; [split; [|split]|split; [|split]]].
      + split; [cbn; lia|]. split; [cbn; lia|]. exact Hz1.
      + exact Hz2.
      + unfold ahead. cbn [ti_nb ti_bb ti_in Z.to_nat lsb_bits app]. exact E.
      + apply left_after_start. exact HG.
      + split; [cbn; lia|]. split; [cbn; lia|]. intros i Hi. rewrite len_nil in Hi. lia.
      + exists D. reflexivity.
      + rewrite len_nil. lia.
    - rewrite Z.add_0_l, len_app, El. rewrite Z.mul_comm. apply Z_mod_mult.
    - apply prefix_refl.
    - unfold len in *. lia.
    - unfold len in *. lia. }
  unfold npy_inflate_upto. rewrite len_app in Ef. pose proof (len_nonneg _ F). pose proof (len_nonneg _ z).
  apply (chunks_short D (left_after D more) more fuel fuel 0 (new_inflate fuel) MZ_OK z F []); auto; try lia; try discriminate.
  - rewrite len_app in HQ. lia.
  - rewrite ztake_0 by lia. reflexivity.
Qed.
