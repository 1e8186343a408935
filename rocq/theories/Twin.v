(** Two runs of the compressor over the same input, from different heap contents, do the
    same (src/miniz/miniz.cpp 138-185, 1245-1778, src/zip.cpp 28-89): what the allocator
    returned is never looked at in a way that shows. *)
From Coq Require Import ZArith List Bool Lia.
From Verif Require Import Base Arr Tinfl Tdefl BaseFacts DeflateSpec BitFacts HuffFacts HuffCost HuffBuild InflCopy MinRed DeflHuff DeflBits DeflLz DeflLz2 DeflLz3 DeflHead DeflBlock DeflWindow DeflTop.
Import ListNotations.
Open Scope Z_scope.

(** ** The same bits are the same output buffer *)
Lemma bits_of_inj : forall a b, bytes_ok a -> bytes_ok b -> bits_of a = bits_of b -> a = b.
Proof.
  induction a as [|x a IH]; intros [|y b] A B E; [reflexivity|discriminate E|discriminate E|].
  inversion_clear A as [|? ? A1 A2]. inversion_clear B as [|? ? B1 B2]. unfold is_byte in *. cbn [bits_of flat_map] in E.
  assert (lsb_bits 8 x = lsb_bits 8 y /\ bits_of a = bits_of b) as [E1 E2].
  { split; [apply (f_equal (firstn 8)) in E|apply (f_equal (skipn 8)) in E]; exact E. }
  f_equal; [|now apply IH]. apply (f_equal bval) in E1. rewrite !bval_lsb, !Z.mod_small in E1 by (change (2 ^ Z.of_nat 8) with 256; lia). exact E1.
Qed.
Lemma app_inv_length {A} (a b c d : list A) : length a = length c -> a ++ b = c ++ d -> a = c /\ b = d.
Proof.
  revert c. induction a as [|x a IH]; intros [|y c] HL E; try discriminate HL; [now split|].
  cbn [app] in E. injection E as -> E. destruct (IH c ltac:(cbn in HL; lia) E) as [-> ->]. now split.
Qed.
Lemma obits_inj o o' : owf o -> owf o' -> ob_nb o < 8 -> ob_nb o' < 8 -> obits o = obits o' -> o = o'.
Proof.
  intros W W' H H' E. pose proof (f_equal (@len bool) E) as EL. rewrite !obits_size in EL by assumption.
  destruct W as [W1 W2 W3 W4]. destruct W' as [V1 V2 V3 V4].
  assert (ob_n o = ob_n o' /\ ob_nb o = ob_nb o') as [EN EB] by lia.
  unfold obits in E. rewrite EB in E, W2. apply app_inv_length in E as [E1 E2].
  2:{ apply Nat2Z.inj. change (len (bits_of (rev (ob_rev o))) = len (bits_of (rev (ob_rev o')))). rewrite !bits_of_len, !len_rev. lia. }
  apply bits_of_inj in E1; [|now apply Forall_rev|now apply Forall_rev]. apply (f_equal (@rev Z)) in E1. rewrite !rev_involutive in E1.
  apply (f_equal bval) in E2. rewrite !bval_lsb, !Z2Nat.id, !Z.mod_small in E2 by lia.
  destruct o, o'. cbn in *. congruence.
Qed.
(** ** The tokens determine their groups *)
Lemma groups_same : forall gs cur gs' cur', full gs -> full gs' -> (length cur < 8)%nat -> (length cur' < 8)%nat ->
  concat gs ++ cur = concat gs' ++ cur' -> gs = gs' /\ cur = cur'.
Proof.
  induction gs as [|g gs IH]; intros cur gs' cur' F F' L L' E; destruct gs' as [|g' gs'].
  - auto.
  - inversion_clear F' as [|? ? G1 G2]. cbn [concat app] in E. apply (f_equal (@length token)) in E. rewrite !app_length in E. lia.
  - inversion_clear F as [|? ? G1 G2]. cbn [concat app] in E. apply (f_equal (@length token)) in E. rewrite !app_length in E. lia.
  - inversion_clear F as [|? ? G1 G2]. inversion_clear F' as [|? ? G1' G2']. cbn [concat] in E. rewrite <- !app_assoc in E.
    apply app_inv_length in E as [-> E]; [|congruence]. destruct (IH _ _ _ G2 G2' L L' E) as [-> ->]. auto.
Qed.

(** ** Equal in everything but the three arrays from the heap *)
Record alike (d d' : tdefl) : Prop := {
  al_hash : d_hash d' = d_hash d; al_lpos : d_lpos d' = d_lpos d; al_lsize : d_lsize d' = d_lsize d;
  al_dsize : d_dsize d' = d_dsize d; al_total : d_total d' = d_total d; al_start : d_start d' = d_start d;
  al_p : d_p d' = d_p d; al_flags : d_flags d' = d_flags d; al_left : d_left d' = d_left d;
  al_count0 : d_count0 d' = d_count0 d; al_count1 : d_count1 d' = d_count1 d;
  al_bb : d_bb d' = d_bb d; al_nb : d_nb d' = d_nb d; al_pend : d_pend d' = d_pend d;
  al_finished : d_finished d' = d_finished d; al_wants : d_wants d' = d_wants d; al_prev : d_prev d' = d_prev d
}.

(** ** A block *)
Lemma lz_same d d' ts out r buf buf' gs' o1 x :
  codes_inv ts d -> codes_inv ts d' -> alike d d' -> d_p d <= LZ_CODE_BUF_SIZE - 2 -> len (flat_map tok_bytes ts) + 1 <= d_p d ->
  expands out ts r -> groups_ok gs' -> concat gs' = ts -> holds buf 0 (layout gs') -> holds buf' 0 (layout gs') ->
  len (layout gs') <= d_p d -> owf o1 -> ob_nb o1 < 8 -> ob_n o1 <= 1 ->
  (if d_total d <? 48 then start_static_block o1 else start_dynamic_block (d_count0 d) (d_count1 d) o1) = Ok x ->
  compress_lz_codes (fst x) buf' (len (layout gs')) (snd x) = compress_lz_codes (fst x) buf (len (layout gs')) (snd x).
Proof.
  intros CI CI' AL HP SZ EX G EC HO HO' EP W1 H81 N1 E.
  destruct (coded_block d ts out r buf gs' o1 CI HP SZ EX G EC HO EP W1 H81 N1) as (x1 & y & E1 & EY & FY & _).
  assert (d_p d' <= LZ_CODE_BUF_SIZE - 2) as HP' by (now rewrite (al_p _ _ AL)).
  assert (len (flat_map tok_bytes ts) + 1 <= d_p d') as SZ' by (now rewrite (al_p _ _ AL)).
  assert (len (layout gs') <= d_p d') as EP' by (now rewrite (al_p _ _ AL)).
  destruct (coded_block d' ts out r buf' gs' o1 CI' HP' SZ' EX G EC HO' EP' W1 H81 N1) as (x2 & y' & E2 & EY' & FY' & _).
  rewrite (al_total _ _ AL), (al_count0 _ _ AL), (al_count1 _ _ AL) in E2.
  rewrite E in E1, E2. injection E1 as <-. injection E2 as <-. rewrite EY, EY'. f_equal.
  assert (exists o2, snd x = o2 /\ tables_ok (fst x) /\ Forall (tok_in (t_sizes0 (fst x)) (t_sizes1 (fst x))) (concat gs') /\ in_code (t_sizes0 (fst x)) 256 /\ owf (snd x) /\ ob_nb (snd x) < 8)
    as (o2 & E2 & T & TI & I256 & W2 & H82).
  { exists (snd x). split; [reflexivity|]. pose proof (ci_ok _ _ CI) as OK. rewrite EC. destruct (d_total d <? 48).
    - destruct (start_static_ok o1 W1 H81) as (t & o2 & ES & E2 & T & TL & TD). rewrite ES in E. injection E as <-. cbn [fst snd].
      split; [exact T|]. rewrite TL, TD. split; [eapply Forall_impl; [|exact OK]; apply fixed_in|].
      split; [vm_compute; split; [split; congruence|reflexivity]|]. split; apply E2.
    - unfold LZ_CODE_BUF_SIZE in HP. destruct CI as [(gs & cur & LI)]. pose proof (lz_inv_len _ _ _ _ _ _ _ LI) as LL.
      destruct (start_dynamic_ok (d_count0 d) (d_count1 d) o1) as (td & hdr & od & ED & EM & DH); try assumption; [lia|lia|].
      rewrite ED in E. injection E as <-. cbn [fst snd]. destruct DH as [T U0 U1 HL K0 K1 BLK].
      split; [exact T|]. split; [eapply counted_in; eassumption|]. split; [apply U0; [lia|now right]|]. split; apply EM. }
  unfold LZ_CODE_BUF_SIZE in HP.
  destruct (compress_lz_ok (fst x) buf gs' (snd x) T) as (b & o3 & E3 & _ & RES); try assumption.
  { rewrite EC. apply CI. } { unfold LZ_CODE_BUF_SIZE. lia. }
  destruct (compress_lz_ok (fst x) buf' gs' (snd x) T) as (b' & o3' & E3' & _ & RES'); try assumption.
  { rewrite EC. apply CI. } { unfold LZ_CODE_BUF_SIZE. lia. }
  rewrite EY in E3. injection E3 as ->. rewrite EY' in E3'. injection E3' as ->. cbn [fst snd] in *. subst b b'.
  destruct RES as (A1 & A2 & A3 & _). destruct RES' as (B1 & B2 & B3 & _). f_equal. apply obits_inj; try assumption. congruence.
Qed.
Lemma put_raw_same n : forall i dict dict' o,
  (forall j, 0 <= j < Z.of_nat n -> arr_get 0 dict (Z.land (i + j) DICT_MASK) = arr_get 0 dict' (Z.land (i + j) DICT_MASK)) ->
  put_raw n dict i o = put_raw n dict' i o.
Proof.
  induction n as [|n IH]; intros i dict dict' o H; cbn [put_raw]; [reflexivity|].
  pose proof (H 0 ltac:(lia)) as H0. rewrite Z.add_0_r in H0. rewrite H0. apply IH. intros j Hj.
  rewrite <- Z.add_assoc. apply H. lia.
Qed.
Lemma block_same d d' ts out r finish : block_ready d ts out r -> block_ready d' ts out r -> alike d d' ->
  block_output d' finish = block_output d finish.
Proof.
  intros [CI HP EX HN HB RAW] [CI' HP' _ HN' HB' RAW'] AL. unfold block_output, close_flags.
  pose proof CI as C0. pose proof CI' as C0'. destruct C0 as [(gs & cur & LI)]. destruct C0' as [(gs1 & cur1 & LI')].
  assert (gs1 = gs /\ cur1 = cur) as [-> ->].
  { apply groups_same; [apply LI'|apply LI|apply LI'|apply LI|]. rewrite <- (li_ts _ _ _ _ _ _ _ LI), <- (li_ts _ _ _ _ _ _ _ LI'). reflexivity. }
  pose proof (final_buffer _ _ _ _ _ _ _ LI) as FB. pose proof (final_buffer _ _ _ _ _ _ _ LI') as FB'. cbv zeta in FB, FB'.
  set (buf := arr_set (d_buf d) _ _) in *. set (buf' := arr_set (d_buf d') _ _) in *.
  set (end_ := d_p d - _) in *. set (end' := d_p d' - _) in *. set (gs' := final_groups gs cur) in *.
  destruct FB as (G & EC & HO & EE & EP). destruct FB' as (_ & _ & HO' & EE' & EP'). clearbody buf buf' end_ end' gs'. subst end_ end'.
  pose proof (lz_inv_size _ _ _ _ _ _ _ LI) as SZ.
  rewrite (al_bb _ _ AL), (al_nb _ _ AL), (al_total _ _ AL), (al_count0 _ _ AL), (al_count1 _ _ AL), (al_lpos _ _ AL), (al_start _ _ AL), (al_dsize _ _ AL).
  set (o0 := mk_obuf [] 0 (d_bb d) (d_nb d)).
  assert (owf o0) as W0 by (constructor; cbn [o0 ob_nb ob_bb ob_n ob_rev]; [lia|lia|reflexivity|constructor]).
  assert (emits o0 (put_bits (if finish then 1 else 0) 1 o0) [finish]) as E1.
  { pose proof (put_bits_ok (if finish then 1 else 0) 1 o0 W0 ltac:(cbn [o0 ob_nb]; lia) ltac:(lia) ltac:(destruct finish; cbn; lia)) as E.
    destruct finish; exact E. }
  set (o1 := put_bits (if finish then 1 else 0) 1 o0) in *.
  destruct E1 as [W1 H81 M1 L1 B1]. cbn [o0 ob_n ob_nb] in M1, L1. rewrite len_cons, len_nil in L1, B1.
  pose proof OUT_LIMIT_eq as OL.
  assert (ob_n o1 <= 1) as N1 by (pose proof (ow_nb _ W1); lia). clearbody o1.
  destruct (coded_block d ts out r buf gs' o1 CI HP SZ EX G EC HO EP W1 H81 N1) as (x & y & EX1 & EY & FY & _).
  cbv zeta. rewrite EX1. cbn [obind].
  rewrite (lz_same d d' ts out r buf buf' gs' o1 x) by assumption. rewrite EY. cbn [obind].
  destruct (negb (d_total d =? 0) && (ob_n (snd y) - ob_n o1 + 1 >=? d_total d) && (u32 (d_lpos d - d_start d) <=? d_dsize d))%bool eqn:CR.
  - apply andb_prop in CR. destruct CR as [CR C3]. apply Z.leb_le in C3.
    destruct (RAW C3) as (data & ER & EL & LM & BO & HD).
    destruct RAW' as (data' & ER' & EL' & _ & _ & HD'); [now rewrite (al_lpos _ _ AL), (al_start _ _ AL), (al_dsize _ _ AL)|].
    rewrite ER in ER'. apply app_inv_head in ER' as <-. rewrite (al_start _ _ AL) in HD'.
    rewrite (put_raw_same _ _ (d_dict d') (d_dict d)); [reflexivity|]. intros j Hj. rewrite HD, HD' by lia. reflexivity.
  - rewrite FY. cbn [negb]. reflexivity.
Qed.

(** ** The window.  Every index below [n - 2] has been filed in the hash chains when [n]
    bytes have been taken; nothing else in m_next is ever looked at *)
Definition filed (n i : Z) : Prop := exists x, 0 <= x /\ x + 2 < n /\ i = x mod 32768.
Definition known (n v : Z) : Prop := v = 0 \/ filed n (v mod 32768).
Lemma filed_more n i : filed n i -> filed (n + 1) i.
Proof. intros (x & H1 & H2 & H3). exists x. split; [lia|]. split; [lia|exact H3]. Qed.
Lemma known_more n v : known n v -> known (n + 1) v.
Proof. intros [H|H]; [now left|right; now apply filed_more]. Qed.
Record near (n : Z) (next next' heads : arr) : Prop := {
  nr_next : forall i, filed n i -> arr_get 0 next' i = arr_get 0 next i;
  nr_known : forall i, filed n i -> known n (arr_get 0 next i);
  nr_heads : forall h, 0 <= h -> known n (arr_get 0 heads h)
}.
Lemma u16_mod_dict a : u16 a mod 32768 = a mod 32768.
Proof. unfold u16. symmetry. apply Znumtheory.Zmod_div_mod; try lia. exists 2. reflexivity. Qed.
Lemma near_step n next next' heads ins h : near n next next' heads -> 2 <= n -> 0 <= h -> ins mod 32768 = (n - 2) mod 32768 ->
  near (n + 1) (arr_set next (Z.land ins DICT_MASK) (arr_get 0 heads h)) (arr_set next' (Z.land ins DICT_MASK) (arr_get 0 heads h))
       (arr_set heads h (u16 ins)).
Proof.
  intros [N1 N2 N3] HN HH E. rewrite land_dict, E. pose proof (Z.mod_pos_bound (n - 2) 32768 ltac:(lia)) as MB.
  assert (forall i, filed (n + 1) i -> 0 <= i) as FP by (intros i (x & _ & _ & ->); apply Z.mod_pos_bound; lia).
  assert (forall i, filed (n + 1) i -> i <> (n - 2) mod 32768 -> filed n i) as OLD.
  { intros i (x & H1 & H2 & H3) NE. exists x. split; [exact H1|]. split; [|exact H3]. destruct (Z.eq_dec x (n - 2)) as [->|]; [congruence|lia]. }
  constructor.
  - intros i Hi. destruct (Z.eq_dec i ((n - 2) mod 32768)) as [->|NE]; [now rewrite !arr_get_same|].
    pose proof (FP i Hi). rewrite !arr_get_other by lia. apply N1. now apply OLD.
  - intros i Hi. destruct (Z.eq_dec i ((n - 2) mod 32768)) as [->|NE]; [rewrite arr_get_same; now apply known_more, N3|].
    pose proof (FP i Hi). rewrite !arr_get_other by lia. apply known_more, N2. now apply OLD.
  - intros k Hk. destruct (Z.eq_dec h k) as [->|NE].
    + rewrite arr_get_same. right. exists (n - 2). split; [lia|]. split; [lia|]. now rewrite u16_mod_dict.
    + rewrite arr_get_other by lia. now apply known_more, N3.
Qed.
Lemma near_skip n next next' heads : near n next next' heads -> n + 1 < 3 -> near (n + 1) next next' heads.
Proof.
  intros [N1 N2 N3] H. assert (forall i, ~ filed (n + 1) i) as NF by (intros i (x & H1 & H2 & _); lia).
  constructor; [intros i Hi; destruct (NF i Hi)..|]. intros h Hh. now apply known_more, N3.
Qed.

Lemma hash_nonneg x : 0 <= Z.land x (HASH_SIZE - 1).
Proof. apply Z.land_nonneg. right. vm_compute. congruence. Qed.
(** two windows with the same bytes in them *)
Definition w_next (w : arr * arr * arr) : arr := snd (fst w).
Definition w_heads (w : arr * arr * arr) : arr := snd w.
Lemma fill_loop_same : forall n dst ins hash w w' lsize (src inp : bytes),
  near (len inp) (w_next w) (w_next w') (w_heads w) -> w_heads w' = w_heads w -> 2 <= len inp -> ins mod 32768 = (len inp - 2) mod 32768 ->
  let r := fill_loop n dst ins hash w lsize src in
  let r' := fill_loop n dst ins hash w' lsize src in
  snd r' = snd r /\ snd (fst r') = snd (fst r) /\
  near (len inp + len (firstn n src)) (w_next (fst (fst r))) (w_next (fst (fst r'))) (w_heads (fst (fst r))) /\
  w_heads (fst (fst r')) = w_heads (fst (fst r)).
Proof.
  induction n as [|n IH]; intros dst ins hash w w' lsize src inp NR EH HN EI; cbv zeta; cbn [fill_loop firstn].
  - rewrite len_nil, Z.add_0_r. auto.
  - destruct src as [|c t]; [rewrite len_nil, Z.add_0_r; auto|].
    destruct w as [[dict next] heads]. destruct w' as [[dict' next'] heads']. cbn [w_next w_heads fst snd] in *. subst heads'.
    match goal with |- context [fill_loop n ?a ?b ?h (dict_store dict _ _, ?nx, ?hd) ?l t] =>
      match goal with |- context [fill_loop n a b h (dict_store dict' ?i ?j, ?nx', hd) l t] =>
        specialize (IH a b h (dict_store dict i j, nx, hd) (dict_store dict' i j, nx', hd) l t (inp ++ [c])) end end.
    rewrite !len_app, !len_cons, !len_nil in IH. cbn [w_next w_heads fst snd] in IH. cbv zeta in IH.
    rewrite len_cons, Z.add_assoc. apply IH; [|reflexivity|lia|].
    + apply near_step; [assumption|assumption|apply hash_nonneg|assumption].
    + rewrite u32_mod_dict. replace (len inp + (1 + 0) - 2) with (len inp - 2 + 1) by lia. rewrite Z.add_mod, EI, <- Z.add_mod by lia. reflexivity.
Qed.
Lemma ring_get dict inp i x : ring dict inp -> i mod 32768 = x mod 32768 -> 0 <= x < len inp -> len inp - 32768 <= x ->
  arr_get 0 dict (Z.land i DICT_MASK) = at_index inp x.
Proof. intros R E H1 H2. rewrite land_dict, E. now apply R. Qed.
Lemma fill_start_same : forall n lpos dsize w w' lsize src inp pos,
  ring (w_dict w) inp -> ring (w_dict w') inp ->
  near (len inp) (w_next w) (w_next w') (w_heads w) -> w_heads w' = w_heads w ->
  lpos = u32 pos -> len inp = pos + lsize -> 0 <= dsize <= pos -> (dsize < 2 -> dsize = pos) -> 0 <= lsize ->
  let r := fill_start n lpos dsize w lsize src in
  let r' := fill_start n lpos dsize w' lsize src in
  snd r' = snd r /\ snd (fst r') = snd (fst r) /\
  near (len inp + len (firstn n src)) (w_next (fst (fst r))) (w_next (fst (fst r'))) (w_heads (fst (fst r))) /\
  w_heads (fst (fst r')) = w_heads (fst (fst r)).
Proof.
  induction n as [|n IH]; intros lpos dsize w w' lsize src inp pos R R' NR EH EL EN DS DD LS; cbv zeta; cbn [fill_start firstn].
  - rewrite len_nil, Z.add_0_r. auto.
  - destruct src as [|c t]; [rewrite len_nil, Z.add_0_r; auto|].
    destruct w as [[dict next] heads]. destruct w' as [[dict' next'] heads']. cbn [w_next w_heads w_dict fst snd] in *. subst heads'.
    assert ((lpos + lsize) mod 32768 = len inp mod 32768) as EM by (rewrite EL, EN, Z.add_mod, u32_mod_dict, <- Z.add_mod by lia; reflexivity).
    assert (forall dc, ring dc inp -> ring (dict_store dc (Z.land (u32 (lpos + lsize)) DICT_MASK) c) (inp ++ [c])) as RS
      by (intros dc H; rewrite land_dict, u32_mod_dict, EM; now apply ring_snoc).
    apply RS in R. apply RS in R'. set (dict1 := dict_store dict _ c) in *. set (dict1' := dict_store dict' _ c) in *.
    clearbody dict1 dict1'. unfold MIN_MATCH_LEN.
    assert (len (inp ++ [c]) = len inp + 1) as LN by (rewrite len_app, len_cons, len_nil; lia).
    rewrite len_cons, Z.add_assoc, <- LN.
    destruct (Z.geb_spec (lsize + 1 + dsize) 3) as [GE|GE].
    + set (ins := u32 (lpos + (lsize + 1 - 1) - 2)).
      assert (ins mod 32768 = (len inp - 2) mod 32768) as EI.
      { unfold ins. rewrite u32_mod_dict. replace (lpos + (lsize + 1 - 1) - 2) with (lpos + lsize - 2) by lia.
        rewrite Zminus_mod, EM, <- Zminus_mod. reflexivity. }
      assert ((ins + 1) mod 32768 = (len inp - 1) mod 32768) as EI1.
      { rewrite Z.add_mod, EI, <- Z.add_mod by lia. f_equal. lia. }
      rewrite (ring_get dict1 _ ins _ R EI), (ring_get dict1 _ (ins + 1) _ R EI1) by lia.
      rewrite (ring_get dict1' _ ins _ R' EI), (ring_get dict1' _ (ins + 1) _ R' EI1) by lia.
      cbv zeta. apply IH with (pos := pos); cbn [w_next w_heads w_dict fst snd]; try assumption; try lia; [|reflexivity].
      rewrite LN. apply near_step; [exact NR|lia|apply hash_nonneg|exact EI].
    + apply IH with (pos := pos); cbn [w_next w_heads w_dict fst snd]; try assumption; try lia; [|reflexivity].
      rewrite LN. apply near_skip; [exact NR|]. specialize (DD ltac:(lia)). lia.
Qed.
Lemma fill_same inp em em' pos st ts d d' src : cinv inp em pos st ts d -> cinv inp em' pos st ts d' -> alike d d' ->
  near (len inp) (d_next d) (d_next d') (d_hash d) ->
  snd (fill d' src) = snd (fill d src) /\ alike (fst (fill d src)) (fst (fill d' src)) /\
  near (len (inp ++ ztake (258 - d_lsize d) src)) (d_next (fst (fill d src))) (d_next (fst (fill d' src))) (d_hash (fst (fill d src))).
Proof.
  intros C C' AL NR. unfold fill. cbv zeta. unfold MAX_MATCH_LEN, MIN_MATCH_LEN.
  rewrite (al_lsize _ _ AL), (al_dsize _ _ AL), (al_lpos _ _ AL). rewrite ztake_firstn, len_app.
  set (n := Z.to_nat (258 - d_lsize d)).
  assert ((d_lpos d + d_lsize d) mod 32768 = len inp mod 32768) as E.
  { rewrite (cv_lpos _ _ _ _ _ _ C), (cv_len _ _ _ _ _ _ C), Z.add_mod, u32_mod_dict, <- Z.add_mod by lia. reflexivity. }
  pose proof (cv_len _ _ _ _ _ _ C) as EL. pose proof (cv_dsize _ _ _ _ _ _ C) as DS. pose proof (cv_lsize _ _ _ _ _ _ C) as LS.
  pose proof (cv_dict _ _ _ _ _ _ C) as DD.
  assert (forall r r' : arr * arr * arr * Z * bytes,
    snd r' = snd r /\ snd (fst r') = snd (fst r) /\
    near (len inp + len (firstn n src)) (w_next (fst (fst r))) (w_next (fst (fst r'))) (w_heads (fst (fst r))) /\
    w_heads (fst (fst r')) = w_heads (fst (fst r)) ->
    let f := fun (d : tdefl) (r : arr * arr * arr * Z * bytes) => let '(w, lsize, src1) := r in (set_window d (fst (fst w)) (snd (fst w)) (snd w) lsize, src1) in
    snd (f d' r') = snd (f d r) /\ alike (fst (f d r)) (fst (f d' r')) /\
    near (len inp + len (firstn n src)) (d_next (fst (f d r))) (d_next (fst (f d' r'))) (d_hash (fst (f d r)))) as FIN.
  { intros [[w l] s] [[w' l'] s']. cbn [fst snd]. intros (-> & -> & H3 & H4). split; [reflexivity|]. split; [|exact H3].
    destruct AL. constructor; cbn [set_window d_hash d_lpos d_lsize d_dsize d_total d_start d_p d_flags d_left d_count0 d_count1 d_bb d_nb d_pend d_finished d_wants d_prev]; try assumption; first [exact H4|reflexivity]. }
  destruct (Z.geb_spec (d_lsize d + d_dsize d) (3 - 1)) as [GE|GE].
  - set (ins := u32 (d_lpos d + d_lsize d - 2)).
    assert (ins mod 32768 = (len inp - 2) mod 32768) as EI by (unfold ins; rewrite u32_mod_dict, Zminus_mod, E, <- Zminus_mod; reflexivity).
    assert ((ins + 1) mod 32768 = (len inp - 1) mod 32768) as EI1 by (rewrite Z.add_mod, EI, <- Z.add_mod by lia; f_equal; lia).
    pose proof (cv_ring _ _ _ _ _ _ C) as R. pose proof (cv_ring _ _ _ _ _ _ C') as R'.
    rewrite (ring_get _ _ ins _ R EI), (ring_get _ _ (ins + 1) _ R EI1) by lia.
    rewrite (ring_get _ _ ins _ R' EI), (ring_get _ _ (ins + 1) _ R' EI1) by lia.
    apply FIN. apply (fill_loop_same n _ ins _ (d_dict d, d_next d, d_hash d) (d_dict d', d_next d', d_hash d') (d_lsize d) src inp); cbn [w_next w_heads fst snd]; [exact NR|apply AL|lia|exact EI].
  - apply FIN. apply (fill_start_same n _ _ (d_dict d, d_next d, d_hash d) (d_dict d', d_next d', d_hash d') (d_lsize d) src inp pos); cbn [w_next w_heads w_dict fst snd].
    + apply C. + apply C'. + exact NR. + apply AL. + apply C. + exact EL. + exact DS. + lia. + lia.
Qed.

(** ** Looking for a match: both runs see the same bytes *)
Section Find.
Variables (d d' : tdefl) (inp : bytes) (pos : Z).
Hypothesis AL : alike d d'.
Hypothesis B : bytes_ok inp.
Hypothesis R : ring (d_dict d) inp.
Hypothesis R' : ring (d_dict d') inp.
Hypothesis NR : near (len inp) (d_next d) (d_next d') (d_hash d).
Hypothesis EL : d_lpos d = u32 pos.
Hypothesis EN : len inp = pos + d_lsize d.
Hypothesis LS : 3 <= d_lsize d <= 258.
Hypothesis DS : 0 <= d_dsize d <= pos.
Hypothesis W : d_dsize d + d_lsize d <= 32768.

Definition sees (q : Z) : Prop := forall j, 0 <= j -> j < d_lsize d ->
  arr_get 0 (d_dict d') (q + j) = arr_get 0 (d_dict d) (q + j) /\ 0 <= arr_get 0 (d_dict d) (q + j) < 256.
Lemma sees_back dist : 0 <= dist <= d_dsize d -> sees ((pos - dist) mod 32768).
Proof.
  intros HD j H1 H2. rewrite (ring_cell _ _ _ _ R), (ring_cell _ _ _ _ R') by lia. split; [reflexivity|]. now apply at_byte.
Qed.
Lemma sees_word q j : sees q -> 0 <= j -> j + 1 < d_lsize d -> word_at (d_dict d') (q + j) = word_at (d_dict d) (q + j).
Proof.
  intros SQ H1 H2. unfold word_at. rewrite <- Z.add_assoc. destruct (SQ j) as [-> _]; [lia|lia|]. destruct (SQ (j + 1)) as [-> _]; [lia|lia|]. reflexivity.
Qed.
Definition probed_in (r : probed) : Prop :=
  match r with P_stop => True | P_miss q => filed (len inp) q | P_hit q dist => filed (len inp) q /\ 0 <= dist <= d_dsize d /\ q = (pos - dist) mod 32768 end.
Lemma probe_same ml c01 i : filed (len inp) i -> 1 <= ml < d_lsize d ->
  probe d' (d_dsize d) ml c01 i = probe d (d_dsize d) ml c01 i /\ probed_in (probe d (d_dsize d) ml c01 i).
Proof.
  intros FI HM. pose proof (nr_known _ _ _ _ NR i FI) as KN.
  unfold probe. rewrite (nr_next _ _ _ _ NR i FI), (al_lpos _ _ AL).
  set (np := arr_get 0 (d_next d) i) in *. destruct (Z.eqb_spec np 0) as [|NZ]; [split; [reflexivity|exact I]|].
  destruct KN as [KN|KN]; [congruence|]. rewrite <- land_dict in KN.
  set (dd := u16 (d_lpos d - np)) in *. destruct (Z.gtb_spec dd (d_dsize d)); [split; [reflexivity|exact I]|].
  assert (0 <= dd <= d_dsize d /\ Z.land np DICT_MASK = (pos - dd) mod 32768) as [DD ED].
  { assert (0 <= dd) by (subst dd; unfold u16; apply Z.mod_pos_bound; lia). split; [lia|].
    rewrite land_dict. subst dd. rewrite EL. unfold u16, u32.
    rewrite <- (Zminus_mod_idemp_r pos). rewrite <- (Znumtheory.Zmod_div_mod 32768 65536) by (try lia; exists 2; reflexivity).
    rewrite Zminus_mod_idemp_r. rewrite <- (Zminus_mod_idemp_l pos).
    replace (pos mod 32768) with ((pos mod 4294967296) mod 32768) by (apply u32_mod_dict).
    rewrite Zminus_mod_idemp_l. f_equal. lia. }
  replace (Z.land np DICT_MASK + ml - 1) with (Z.land np DICT_MASK + (ml - 1)) by lia.
  rewrite sees_word by (try (rewrite ED; apply sees_back); lia). split; [reflexivity|].
  destruct (_ =? c01); cbn [probed_in]; [split; [exact KN|split; [exact DD|exact ED]]|exact KN].
Qed.
Lemma probe3_same ml c01 i : filed (len inp) i -> 1 <= ml < d_lsize d ->
  probe3 d' (d_dsize d) ml c01 i = probe3 d (d_dsize d) ml c01 i /\ probed_in (probe3 d (d_dsize d) ml c01 i).
Proof.
  intros FI HM. unfold probe3. destruct (probe_same ml c01 i FI HM) as [-> P1]. destruct (probe d (d_dsize d) ml c01 i) as [|q|q dist]; [auto| |auto].
  cbn [probed_in] in P1. destruct (probe_same ml c01 q P1 HM) as [-> P2]. destruct (probe d (d_dsize d) ml c01 q) as [|q2|q2 dist2]; [auto| |auto].
  now apply probe_same.
Qed.
(** the length found, cut to the lookahead *)
Definition capped (dict : arr) (p q : Z) (r : option Z) : Z :=
  match r with
  | None => d_lsize d
  | Some i => Z.min (d_lsize d) (2 * i + (if arr_get 0 dict (p + 2 * i) =? arr_get 0 dict (q + 2 * i) then 1 else 0))
  end.
Lemma first_diff_from dict p q : forall n i, match first_diff n dict p q i with None => True | Some k => i <= k end.
Proof.
  induction n as [|n IH]; intros i; cbn [first_diff]; [exact I|]. destruct (_ =? _); [|lia]. specialize (IH (i + 1)).
  destruct (first_diff n dict p q (i + 1)); [lia|exact I].
Qed.
Lemma capped_late dict p q n i : d_lsize d <= 2 * i -> capped dict p q (first_diff n dict p q i) = d_lsize d.
Proof.
  intros H. pose proof (first_diff_from dict p q n i) as F. destruct (first_diff n dict p q i) as [k|]; cbn [capped]; [|reflexivity].
  destruct (_ =? _); lia.
Qed.
Lemma first_diff_same p q : sees p -> sees q -> forall n i, 0 <= i -> i + Z.of_nat n = 129 ->
  capped (d_dict d') p q (first_diff n (d_dict d') p q i) = capped (d_dict d) p q (first_diff n (d_dict d) p q i).
Proof.
  intros SP SQ. induction n as [|n IH]; intros i Hi HN; [reflexivity|].
  destruct (Z_le_gt_dec (d_lsize d) (2 * i)) as [L|L]; [now rewrite !capped_late|].
  destruct (SP (2 * i)) as [P1 P2]; [lia|lia|]. destruct (SQ (2 * i)) as [Q1 Q2]; [lia|lia|].
  destruct (Z.eq_dec (d_lsize d) (2 * i + 1)) as [E|NE].
  - assert (forall dict, 0 <= arr_get 0 dict (p + 2 * i) < 256 -> 0 <= arr_get 0 dict (q + 2 * i) < 256 ->
      capped dict p q (first_diff (S n) dict p q i) = 2 * i + (if arr_get 0 dict (p + 2 * i) =? arr_get 0 dict (q + 2 * i) then 1 else 0)) as H.
    { intros dict B1 B2. cbn [first_diff]. unfold word_at at 1 2.
      destruct (Z.eqb_spec (arr_get 0 dict (p + 2 * i) + 256 * arr_get 0 dict (p + 2 * i + 1)) (arr_get 0 dict (q + 2 * i) + 256 * arr_get 0 dict (q + 2 * i + 1))) as [EQ|_].
      - apply word_inj in EQ; [|assumption|assumption]. destruct EQ as [-> _]. rewrite Z.eqb_refl, capped_late by lia. lia.
      - cbn [capped]. destruct (_ =? _); lia. }
    rewrite !H by lia. now rewrite P1, Q1.
  - cbn [first_diff]. rewrite (sees_word p) by (assumption || lia). rewrite (sees_word q) by (assumption || lia).
    destruct (_ =? _); [apply IH; lia|]. cbn [capped]. now rewrite P1, Q1.
Qed.
(** one turn of find_loop, by the capped length *)
Lemma find_turn n dd p at_ dist0 ml c01 : ml < d_lsize dd -> d_lsize dd = d_lsize d -> (3 <= d_lsize dd <= 258) ->
  find_loop (S (S n)) dd (d_dsize d) (d_lsize d) p at_ dist0 ml c01 =
  match probe3 dd (d_dsize d) ml c01 at_ with
  | P_stop => (dist0, ml)
  | P_miss q => find_loop (S n) dd (d_dsize d) (d_lsize d) p q dist0 ml c01
  | P_hit q dist =>
      if dist =? 0 then (dist0, ml)
      else if negb (word_at (d_dict dd) q =? word_at (d_dict dd) p)
      then find_loop (S n) dd (d_dsize d) (d_lsize d) p q dist0 ml c01
      else let l := capped (d_dict dd) p q (first_diff 128 (d_dict dd) p q 1) in
           if l >? ml then if l =? d_lsize d then (dist, l)
                           else find_loop (S n) dd (d_dsize d) (d_lsize d) p q dist l (word_at (d_dict dd) (p + l - 1))
           else find_loop (S n) dd (d_dsize d) (d_lsize d) p q dist0 ml c01
  end.
Proof.
  intros H1 H2 H3. change (find_loop (S (S n)) dd (d_dsize d) (d_lsize d) p at_ dist0 ml c01) with
    (match probe3 dd (d_dsize d) ml c01 at_ with
  | P_stop => (dist0, ml)
  | P_miss q => find_loop (S n) dd (d_dsize d) (d_lsize d) p q dist0 ml c01
  | P_hit q dist =>
          if dist =? 0 then (dist0, ml)
          else if negb (word_at (d_dict dd) q =? word_at (d_dict dd) p)
          then find_loop (S n) dd (d_dsize d) (d_lsize d) p q dist0 ml c01
          else match first_diff 128 (d_dict dd) p q 1 with
               | None => (dist, Z.min (d_lsize d) MAX_MATCH_LEN)
               | Some i =>
                   let l := 2 * i + (if arr_get 0 (d_dict dd) (p + 2 * i)
                                        =? arr_get 0 (d_dict dd) (q + 2 * i) then 1 else 0) in
                   if l >? ml then
                     let l' := Z.min (d_lsize d) l in
                     if l' =? d_lsize d then (dist, l')
                     else find_loop (S n) dd (d_dsize d) (d_lsize d) p q dist l'
                                    (word_at (d_dict dd) (p + l' - 1))
                   else find_loop (S n) dd (d_dsize d) (d_lsize d) p q dist0 ml c01
               end
  end).
  destruct (probe3 dd (d_dsize d) ml c01 at_) as [|q|q dist]; [reflexivity|reflexivity|].
  destruct (dist =? 0); [reflexivity|]. destruct (negb _); [reflexivity|].
  destruct (first_diff 128 (d_dict dd) p q 1) as [i|]; cbn [capped]; cbv zeta.
  - set (l := 2 * i + _). replace (Z.min (d_lsize d) l >? ml) with (l >? ml); [reflexivity|].
    destruct (Z.gtb_spec l ml), (Z.gtb_spec (Z.min (d_lsize d) l) ml); lia || reflexivity.
  - assert (d_lsize d >? ml = true) as -> by (apply Z.gtb_lt; lia). rewrite Z.eqb_refl. unfold MAX_MATCH_LEN. f_equal. lia.
Qed.
Lemma find_loop_same : forall n at_ dist0 ml c01, filed (len inp) at_ -> 2 <= ml < d_lsize d ->
  find_loop n d' (d_dsize d) (d_lsize d) (pos mod 32768) at_ dist0 ml c01 = find_loop n d (d_dsize d) (d_lsize d) (pos mod 32768) at_ dist0 ml c01.
Proof.
  induction n as [|n IH]; intros at_ dist0 ml c01 FI HM; [reflexivity|]. destruct n as [|n]; [reflexivity|].
  pose proof (al_lsize _ _ AL) as ELS.
  rewrite (find_turn n d) by lia. rewrite (find_turn n d') by lia.
  destruct (probe3_same ml c01 at_ FI) as [-> PI]; [lia|].
  assert (sees (pos mod 32768)) as SP by (rewrite <- (Z.sub_0_r pos); apply sees_back; lia).
  destruct (probe3 d (d_dsize d) ml c01 at_) as [|q|q dist]; cbn [probed_in] in PI; [reflexivity|now apply IH|].
  destruct PI as (FQ & DQ & EQ). assert (sees q) as SQ by (rewrite EQ; now apply sees_back).
  rewrite <- (Z.add_0_r q) at 1. rewrite <- (Z.add_0_r (pos mod 32768)) at 1. rewrite !sees_word by (assumption || lia). rewrite !Z.add_0_r.
  destruct (dist =? 0); [reflexivity|]. destruct (negb _); [now apply IH|].
  rewrite (first_diff_same _ _ SP SQ 128 1) by (try reflexivity; lia). cbv zeta.
  set (l := capped _ _ _ _).
  assert (l <= d_lsize d) as LL by (unfold l, capped; destruct (first_diff _ _ _ _ _); lia).
  destruct (Z.gtb_spec l ml); [|now apply IH]. destruct (Z.eqb_spec l (d_lsize d)); [reflexivity|].
  replace (pos mod 32768 + l - 1) with (pos mod 32768 + (l - 1)) by lia. rewrite sees_word by (assumption || lia). apply IH; [assumption|lia].
Qed.
End Find.
Lemma find_same inp em em' pos st ts d d' : cinv inp em pos st ts d -> cinv inp em' pos st ts d' -> alike d d' ->
  near (len inp) (d_next d) (d_next d') (d_hash d) -> find_match d' = find_match d.
Proof.
  intros C C' AL NR. unfold find_match. rewrite (al_lpos _ _ AL), (al_lsize _ _ AL), (al_dsize _ _ AL). unfold MIN_MATCH_LEN.
  destruct (Z.leb_spec (d_lsize d) (3 - 1)) as [|HL]; [reflexivity|].
  rewrite land_dict, (cv_lpos _ _ _ _ _ _ C), u32_mod_dict. pose proof (cv_lsize _ _ _ _ _ _ C). pose proof (cv_dsize _ _ _ _ _ _ C).
  pose proof (cv_len _ _ _ _ _ _ C) as EL. pose proof (cv_window _ _ _ _ _ _ C) as WI.
  pose proof (cv_bytes _ _ _ _ _ _ C) as BB. pose proof (cv_ring _ _ _ _ _ _ C) as R. pose proof (cv_ring _ _ _ _ _ _ C') as R'.
  replace (pos mod 32768 + (3 - 1) - 1) with (pos mod 32768 + 1) by lia.
  assert (sees d d' (pos mod 32768)) as SP by (rewrite <- (Z.sub_0_r pos); eapply sees_back with (inp := inp); eauto; lia).
  rewrite (sees_word d d' _ 1 SP) by lia.
  apply find_loop_same with (inp := inp); try assumption; try lia; [apply C|].
  exists pos. split; [lia|]. split; [lia|reflexivity].
Qed.

(** ** Recording a token *)
Lemma flag_same bit buf buf' p flags nleft x x' : next_flag bit buf p flags nleft = Ok x -> next_flag bit buf' p flags nleft = Ok x' ->
  snd (fst (fst x')) = snd (fst (fst x)) /\ snd (fst x') = snd (fst x) /\ snd x' = snd x.
Proof.
  unfold next_flag, buf_put. destruct (_ && _); [|intros H; discriminate H]. cbn [obind].
  destruct (nleft - 1 =? 0); intros H H'; injection H as <-; injection H' as <-; auto.
Qed.
Ltac al_fields := cbn [set_window set_position set_codes set_status set_pend d_dict d_next d_hash d_lpos d_lsize d_dsize d_total d_start d_buf d_p d_flags d_left d_count0 d_count1 d_bb d_nb d_pend d_finished d_wants d_prev].
Lemma literal_same d d' c d3 d3' : alike d d' -> record_literal d c = Ok d3 -> record_literal d' c = Ok d3' ->
  alike d3 d3' /\ d_next d3 = d_next d /\ d_next d3' = d_next d' /\ d_hash d3 = d_hash d.
Proof.
  intros [] E E'. unfold record_literal in *. rewrite al_p0, al_flags0, al_left0, al_total0, al_count2, al_count3 in E'.
  destruct (buf_put (d_buf d) (d_p d) c) as [b|e| |u]; try discriminate E. destruct (buf_put (d_buf d') (d_p d) c) as [b'|e| |u]; try discriminate E'.
  cbn [obind] in *. destruct (next_flag 0 b _ _ _) as [[[[b1 p1] f1] l1]|e| |u] eqn:F; try discriminate E.
  destruct (next_flag 0 b' _ _ _) as [[[[b1' p1'] f1'] l1']|e| |u] eqn:F'; try discriminate E'. cbn [obind] in *.
  destruct (flag_same _ _ _ _ _ _ _ _ F F') as (S1 & S2 & S3). cbn [fst snd] in *. subst.
  injection E as <-. injection E' as <-. split; [constructor|split; [|split]]; al_fields; assumption || reflexivity.
Qed.
Lemma match_same d d' n k d3 d3' : alike d d' -> record_match d n k = Ok d3 -> record_match d' n k = Ok d3' ->
  alike d3 d3' /\ d_next d3 = d_next d /\ d_next d3' = d_next d' /\ d_hash d3 = d_hash d.
Proof.
  intros [] E E'. unfold record_match in *. rewrite al_p0, al_flags0, al_left0, al_total0, al_count2, al_count3 in E'.
  destruct (buf_put (d_buf d) (d_p d) _) as [b|e| |u]; try discriminate E. destruct (buf_put (d_buf d') (d_p d) _) as [b'|e| |u]; try discriminate E'.
  cbn [obind] in *.
  destruct (buf_put b (d_p d + 1) _) as [c|e| |u]; try discriminate E. destruct (buf_put b' (d_p d + 1) _) as [c'|e| |u]; try discriminate E'.
  cbn [obind] in *.
  destruct (buf_put c (d_p d + 2) _) as [f|e| |u]; try discriminate E. destruct (buf_put c' (d_p d + 2) _) as [f'|e| |u]; try discriminate E'.
  cbn [obind] in *. destruct (next_flag 128 f _ _ _) as [[[[b1 p1] f1] l1]|e| |u] eqn:F; try discriminate E.
  destruct (next_flag 128 f' _ _ _) as [[[[b1' p1'] f1'] l1']|e| |u] eqn:F'; try discriminate E'. cbn [obind] in *.
  destruct (flag_same _ _ _ _ _ _ _ _ F F') as (S1 & S2 & S3). cbn [fst snd] in *. subst.
  injection E as <-. injection E' as <-. split; [constructor|split; [|split]]; al_fields; assumption || reflexivity.
Qed.

(** ** One turn: the same token in both runs *)
Definition token_here (inp : bytes) (pos : Z) (d2 : tdefl) : token :=
  let (dist0, len0) := find_match d2 in
  let drop := ((len0 =? MIN_MATCH_LEN) && (dist0 >=? 8 * 1024)) || (Z.land (d_lpos d2) DICT_MASK =? dist0) in
  if (if drop then 0 else dist0) =? 0 then Lit (at_index inp pos) else Copy (if drop then 0 else len0) (if drop then 0 else dist0).
Definition record_token (d2 : tdefl) (t : token) : outcome tdefl :=
  match t with Lit c => record_literal d2 c | Copy n k => record_match d2 n k end.
Lemma step_by_token inp em pos st ts d2 : cinv inp em pos st ts d2 -> 1 <= d_lsize d2 ->
  step_token d2 = (let* d3 := record_token d2 (token_here inp pos d2) in Ok (d3, tok_len (token_here inp pos d2))).
Proof.
  intros [] HL. pose proof (here_ok d2 inp pos cv_ring cv_lpos cv_len cv_lsize cv_dsize ltac:(lia)) as HERE.
  unfold step_token, token_here. destruct (find_match d2) as [dist0 len0]. cbv zeta. rewrite HERE.
  set (drop := _ || _). destruct (_ =? 0); reflexivity.
Qed.
Lemma token_ok inp em pos st ts d2 : cinv inp em pos st ts d2 -> 1 <= d_lsize d2 -> d_p d2 <= LZ_CODE_BUF_SIZE - 8 ->
  let tok := token_here inp pos d2 in
  exists d3, record_token d2 tok = Ok d3 /\ 1 <= tok_len tok <= d_lsize d2 /\
    cinv inp em (pos + tok_len tok) st (ts ++ [tok]) (moved d3 (tok_len tok)) /\
    d_lsize (moved d3 (tok_len tok)) = d_lsize d2 - tok_len tok /\ d_p (moved d3 (tok_len tok)) <= d_p d2 + 4 /\
    d_pend (moved d3 (tok_len tok)) = d_pend d2.
Proof.
  intros C HL HP. pose proof C as C0. destruct C0.
  pose proof (find_match_ok d2 inp pos cv_bytes cv_ring cv_lpos cv_len cv_lsize cv_dsize cv_window) as F.
  cbv zeta. unfold token_here. destruct (find_match d2) as [dist0 len0]. unfold found in F. cbn [fst snd] in F.
  set (drop := _ || _). clearbody drop.
  destruct (Z.eqb_spec (if drop then 0 else dist0) 0) as [Z0|Z0].
  - cbn [record_token tok_len].
    destruct (record_literal_ok ts d2 (at_index inp pos) cv_codes HP) as (d3 & -> & CI & SW & PB); [now apply at_byte|].
    exists d3. split; [reflexivity|]. split; [lia|].
    destruct (cinv_moved inp em pos st ts d2 d3 (Lit (at_index inp pos)) 1) as (M1 & M2 & M3 & M4 & M5); auto; [lia| |].
    { rewrite ztake_snoc by lia. now apply expands_snoc. }
    split; [assumption|]. split; [assumption|]. split; [lia|]. assumption.
  - destruct drop; [lia|]. destruct F as [F|(F1 & F2 & F3)]; [lia|]. cbn [record_token tok_len].
    destruct (record_match_ok ts d2 len0 dist0 cv_codes HP ltac:(lia) ltac:(lia)) as (d3 & -> & CI & SW & PB).
    exists d3. split; [reflexivity|]. split; [lia|].
    destruct (cinv_moved inp em pos st ts d2 d3 (Copy len0 dist0) len0) as (M1 & M2 & M3 & M4 & M5); auto; [lia|].
    { rewrite <- (Z2Nat.id len0) at 2 by lia. rewrite <- copy_matches with (dist := dist0); try lia.
      - apply expands_snoc_copy; [assumption|]. rewrite len_ztake. lia.
      - rewrite Z2Nat.id by lia. exact F3. }
Qed.
Lemma moved_same d d' k : alike d d' -> alike (moved d k) (moved d' k).
Proof. intros []. unfold moved. rewrite al_lpos0, al_lsize0, al_dsize0. constructor; al_fields; assumption || reflexivity. Qed.
Lemma full_same d d' : alike d d' -> block_full d' = block_full d.
Proof. intros []. unfold block_full. now rewrite al_p0, al_total0. Qed.

(** ** Both runs *)
Record pair (inp : bytes) (d d' : tdefl) : Prop := {
  pa_alike : alike d d';
  pa_inv : d_finished d = false -> entry d /\ near (len inp) (d_next d) (d_next d') (d_hash d) /\
    exists em em' pos st ts, cinv inp em pos st ts d /\ cinv inp em' pos st ts d'
}.
Lemma flush_same inp em em' pos st ts d d' finish room : cinv inp em pos st ts d -> cinv inp em' pos st ts d' -> alike d d' ->
  near (len inp) (d_next d) (d_next d') (d_hash d) -> d_p d <= LZ_CODE_BUF_SIZE - 2 -> 0 <= room -> (finish = false -> 31744 < pos - st) ->
  exists sent d5 d5', flush_block d finish room = Ok (sent, d5) /\ flush_block d' finish room = Ok (sent, d5') /\
    alike d5 d5' /\ near (len inp) (d_next d5) (d_next d5') (d_hash d5) /\ len sent <= room /\ d_p d5 = 1 /\ d_lsize d5 = d_lsize d /\
    (finish = false -> exists em5 em5', cinv inp em5 pos pos [] d5 /\ cinv inp em5' pos pos [] d5').
Proof.
  intros C C' AL NR HP HR HF. assert (d_p d' <= LZ_CODE_BUF_SIZE - 2) as HP' by (now rewrite (al_p _ _ AL)).
  destruct (flush_ok inp em pos st ts d finish room C HP HR HF) as (sent & d5 & E5 & _ & L5 & P5 & _ & R5 & _ & _ & C5).
  destruct (flush_ok inp em' pos st ts d' finish room C' HP' HR HF) as (sent' & d5' & E5' & _ & _ & _ & _ & _ & _ & _ & C5').
  pose proof (block_same d d' ts (ztake st inp) (ztake pos inp) finish (cinv_ready _ _ _ _ _ _ C HP) (cinv_ready _ _ _ _ _ _ C' HP') AL) as BS.
  exists sent, d5, d5'. split; [exact E5|].
  unfold flush_block in E5, E5'. rewrite BS in E5'. destruct (block_output d finish) as [o|e| |u]; try discriminate E5.
  cbn [obind] in E5, E5'. injection E5 as ES ED. injection E5' as ES' ED'. rewrite ES in ES'. subst sent'.
  split.
  { unfold flush_block. rewrite BS. cbn [obind]. rewrite <- ED', <- ES. reflexivity. }
  subst d5 d5'. cbn [d_p d_lsize d_next d_hash]. destruct AL.
  split; [constructor; cbn [d_dict d_next d_hash d_lpos d_lsize d_dsize d_total d_start d_buf d_p d_flags d_left d_count0 d_count1 d_bb d_nb d_pend d_finished d_wants d_prev]; try assumption; try reflexivity; congruence|].
  split; [exact NR|]. split; [exact R5|]. split; [reflexivity|]. split; [reflexivity|].
  intros ->. exists (em ++ sent ++ (if room >=? OUT_BUF_SIZE then [] else zdrop room (rev' (ob_rev o)))), (em' ++ sent ++ (if room >=? OUT_BUF_SIZE then [] else zdrop room (rev' (ob_rev o)))).
  split; [exact C5|exact C5'].
Qed.
Lemma clip_same d1 d1' : alike d1 d1' ->
  alike (set_position d1 (d_lpos d1) (d_lsize d1) (Z.min (TDEFL_LZ_DICT_SIZE - d_lsize d1) (d_dsize d1)))
        (set_position d1' (d_lpos d1') (d_lsize d1') (Z.min (TDEFL_LZ_DICT_SIZE - d_lsize d1') (d_dsize d1'))).
Proof. intros []. rewrite al_lpos0, al_lsize0, al_dsize0. constructor; al_fields; assumption || reflexivity. Qed.
Lemma normal_same finish room : forall turns src out inp em em' pos st ts d d',
  cinv inp em pos st ts d -> cinv inp em' pos st ts d' -> alike d d' -> near (len inp) (d_next d) (d_next d') (d_hash d) -> entry d ->
  bytes_ok src -> len out <= room ->
  (compress_normal turns d finish room src out = Undef OutOfFuel /\ compress_normal turns d' finish room src out = Undef OutOfFuel) \/
  exists src1 out1 inp1 em1 em1' pos1 st1 ts1 d1 d1',
    compress_normal turns d finish room src out = Ok (src1, out1, d1) /\ compress_normal turns d' finish room src out = Ok (src1, out1, d1') /\
    cinv inp1 em1 pos1 st1 ts1 d1 /\ cinv inp1 em1' pos1 st1 ts1 d1' /\ alike d1 d1' /\
    near (len inp1) (d_next d1) (d_next d1') (d_hash d1) /\ entry d1 /\ bytes_ok src1 /\ len out1 <= room.
Proof.
  induction turns as [|turns IH]; intros src out inp em em' pos st ts d d' C C' AL NR EN BS HR; [left; split; reflexivity|].
  rewrite !compress_normal_step. rewrite (al_lsize _ _ AL). destruct (_ || _) eqn:GO.
  2:{ right. exists src, out, inp, em, em', pos, st, ts, d, d'. repeat (split; [assumption || reflexivity|]). assumption. }
  destruct (fill_same inp em em' pos st ts d d' src C C' AL NR) as (F1 & F2 & F3).
  destruct (cinv_fill _ _ _ _ _ _ src C BS) as (d2 & E2 & C2 & L2 & P2 & _ & _).
  destruct (cinv_fill _ _ _ _ _ _ src C' BS) as (d2' & E2' & C2' & _ & _ & _ & _). cbv zeta in *.
  rewrite (al_lsize _ _ AL) in E2', C2'. rewrite E2, E2'.
  set (taken := ztake (258 - d_lsize d) src) in *. set (rest := zdrop (258 - d_lsize d) src) in *.
  assert (bytes_ok rest) as BR by (now apply bytes_ok_zdrop).
  destruct (fill d src) as [d1 s1]. destruct (fill d' src) as [d1' s1']. cbn [fst snd] in F1, F2, F3.
  assert (alike d2 d2' /\ near (len (inp ++ taken)) (d_next d2) (d_next d2') (d_hash d2)) as [AL2 NR2].
  { clear - E2 E2' F2 F3. injection E2 as E2 _. injection E2' as E2' _. rewrite <- E2, <- E2'. split; [now apply clip_same|exact F3]. }
  clear E2 E2' F1 F2 F3 d1 d1' s1 s1'. rewrite (al_lsize _ _ AL2).
  assert (len taken <= len src /\ len taken <= 258 - d_lsize d) as LT.
  { unfold taken. rewrite len_ztake. pose proof (len_nonneg _ src). destruct EN. unfold entry in *. lia. }
  destruct EN as [EP EL]. unfold LZ_CODE_BUF_SIZE in EP.
  destruct (negb finish && _) eqn:STOP.
  { apply andb_true_iff in STOP. destruct STOP as [_ S2]. unfold MAX_MATCH_LEN in S2. apply Z.ltb_lt in S2. right.
    exists rest, out, (inp ++ taken), em, em', pos, st, ts, d2, d2'. repeat (split; [assumption || reflexivity|]).
    split; [split; unfold LZ_CODE_BUF_SIZE; lia|]. split; assumption. }
  assert (1 <= d_lsize d2) as L1.
  { unfold MAX_MATCH_LEN in STOP. pose proof (cv_lsize _ _ _ _ _ _ C). destruct finish; cbn [negb andb] in STOP; [|apply Z.ltb_ge in STOP; lia].
    apply orb_true_iff in GO. destruct GO as [G|G]; [|cbn [andb] in G; apply negb_true_iff, Z.eqb_neq in G; pose proof (len_nonneg _ taken); lia].
    destruct src as [|c src]; [discriminate|]. unfold taken in L2. rewrite len_ztake, len_cons in L2.
    pose proof (len_nonneg _ src). lia. }
  assert (token_here (inp ++ taken) pos d2' = token_here (inp ++ taken) pos d2) as ET.
  { unfold token_here. rewrite (find_same _ _ _ _ _ _ _ _ C2 C2' AL2 NR2), (al_lpos _ _ AL2). reflexivity. }
  assert (1 <= d_lsize d2') as L1' by (now rewrite (al_lsize _ _ AL2)).
  destruct (token_ok _ _ _ _ _ _ C2 L1) as (d3 & E3 & HM & C4 & L4 & P4 & _); [unfold LZ_CODE_BUF_SIZE; lia|].
  destruct (token_ok _ _ _ _ _ _ C2' L1') as (d3' & E3' & _ & C4' & _ & _ & _); [rewrite (al_p _ _ AL2); unfold LZ_CODE_BUF_SIZE; lia|].
  rewrite (step_by_token _ _ _ _ _ _ C2 L1), (step_by_token _ _ _ _ _ _ C2' L1'). rewrite ET in *. set (tok := token_here (inp ++ taken) pos d2) in *.
  rewrite E3, E3'. cbn [obind fst snd]. cbv zeta.
  assert (alike d3 d3' /\ d_next d3 = d_next d2 /\ d_next d3' = d_next d2' /\ d_hash d3 = d_hash d2) as (AL3 & N1 & N2 & N3).
  { destruct tok; cbn [record_token] in E3, E3'; [eapply literal_same|eapply match_same]; eassumption. }
  pose proof (moved_same d3 d3' (tok_len tok) AL3) as AL4. rewrite <- N1, <- N2, <- N3 in NR2.
  assert (near (len (inp ++ taken)) (d_next (moved d3 (tok_len tok))) (d_next (moved d3' (tok_len tok))) (d_hash (moved d3 (tok_len tok)))) as NR4 by exact NR2.
  set (d4 := moved d3 (tok_len tok)) in *. set (d4' := moved d3' (tok_len tok)) in *. clearbody d4 d4' tok.
  clear E3 E3' AL3 N1 N2 N3 NR2 d3 d3'. rewrite (full_same _ _ AL4). pose proof (cv_lsize _ _ _ _ _ _ C2) as LS2.
  destruct (block_full d4) eqn:BF.
  - destruct (flush_same _ _ _ _ _ _ _ _ false (room - len out) C4 C4' AL4 NR4) as (sent & d5 & d5' & E5 & E5' & AL5 & NR5 & R5 & P5 & L5 & CC); [unfold LZ_CODE_BUF_SIZE; lia|lia|intros _; rewrite <- (cv_total _ _ _ _ _ _ C4); eapply codes_full; [apply C4|exact BF]|].
    destruct (CC eq_refl) as (em5 & em5' & C5 & C5'). rewrite E5, E5'. cbn [obind fst snd]. rewrite (al_pend _ _ AL5).
    assert (entry d5) as EN5 by (split; [rewrite P5; unfold LZ_CODE_BUF_SIZE; lia|lia]).
    assert (len (out ++ sent) <= room) as HR5 by (rewrite len_app; lia).
    destruct (d_pend d5) as [|c t].
    + eapply IH; eassumption.
    + right. eexists _, _, _, _, _, _, _, _, _, _. split; [reflexivity|]. split; [reflexivity|]. split; [exact C5|]. split; [exact C5'|]. auto.
  - assert (entry d4) as EN4.
    { unfold block_full in BF. apply orb_false_iff in BF. destruct BF as [BF _]. split; [rewrite Z.gtb_ltb in BF; apply Z.ltb_ge in BF; exact BF|lia]. }
    eapply IH; eassumption.
Qed.

(** ** Calls *)
Definition mates (d d' : tdefl) : Prop := exists inp, pair inp d d'.
Lemma pair_ext inp d d' e e' : pair inp d d' -> alike e e' ->
  (d_finished e = false -> d_finished d = false /\ entry e /\ d_next e = d_next d /\ d_next e' = d_next d' /\ d_hash e = d_hash d /\
    forall em em' pos st ts, cinv inp em pos st ts d -> cinv inp em' pos st ts d' -> cinv inp em pos st ts e /\ cinv inp em' pos st ts e') -> pair inp e e'.
Proof.
  intros [P1 P2] AL H. constructor; [exact AL|]. intros F. destruct (H F) as (FD & EN & N1 & N2 & N3 & K). destruct (P2 FD) as (_ & NR & em & em' & pos & st & ts & C & C').
  rewrite N1, N2, N3. split; [exact EN|]. split; [exact NR|]. exists em, em', pos, st, ts. now apply K.
Qed.
Definition agree (r r' : outcome (Z * bytes * bytes * tdefl)) : Prop :=
  match r with
  | Ok (s, src, o, d) => bytes_ok src /\ exists d', r' = Ok (s, src, o, d') /\ mates d d'
  | Throw e => r' = Throw e | AssertFail => r' = AssertFail | Undef u => r' = Undef u
  end.
Lemma output_same inp d d' room : pair inp d d' -> exists o d1 d1' status,
  flush_output_buffer d room = (o, d1, status) /\ flush_output_buffer d' room = (o, d1', status) /\ pair inp d1 d1'.
Proof.
  intros P. pose proof (pa_alike _ _ _ P) as AL. unfold flush_output_buffer. cbv zeta. al_fields. rewrite (al_pend _ _ AL), (al_finished _ _ AL).
  eexists _, _, _, _. split; [reflexivity|]. split; [reflexivity|]. eapply pair_ext; [exact P| |].
  - destruct AL. constructor; al_fields; assumption || reflexivity.
  - al_fields. intros F. split; [exact F|]. destruct (pa_inv _ _ _ P F) as (EN & _). split; [exact EN|].
    repeat (split; [reflexivity|]). intros em em' pos st ts C C'. split; [same_cinv C|same_cinv C'].
Qed.
Lemma status_same inp d d' w p : pair inp d d' -> pair inp (set_status d (d_finished d) w p) (set_status d' (d_finished d') w p).
Proof.
  intros P. pose proof (pa_alike _ _ _ P) as AL. eapply pair_ext; [exact P| |].
  - destruct AL. constructor; al_fields; assumption || reflexivity.
  - al_fields. intros F. split; [exact F|]. destruct (pa_inv _ _ _ P F) as (EN & _). split; [exact EN|].
    repeat (split; [reflexivity|]). intros em em' pos st ts C C'. split; [same_cinv C|same_cinv C'].
Qed.
Lemma compress_same d d' src room finish : mates d d' -> bytes_ok src -> 0 <= room ->
  agree (tdefl_compress d src room finish) (tdefl_compress d' src room finish) /\
  match tdefl_compress d src room finish with Ok (_, _, o, _) => len o <= room | _ => True end.
Proof.
  intros [inp P] BS HR. pose proof (pa_alike _ _ _ P) as AL. unfold tdefl_compress.
  rewrite (al_prev _ _ AL), (al_wants _ _ AL). destruct (_ || _) eqn:BAD.
  { cbn [agree]. split; [|rewrite len_nil; exact HR]. split; [exact BS|]. eexists. split; [reflexivity|]. exists inp. rewrite <- (al_wants _ _ AL) at 2. rewrite (al_wants _ _ AL). now apply status_same. }
  cbv zeta. pose proof (status_same inp d d' (d_wants d || finish) (d_prev d) P) as P0.
  set (d0 := set_status d (d_finished d) (d_wants d || finish) (d_prev d)) in *.
  set (d0' := set_status d' (d_finished d') (d_wants d || finish) (d_prev d)) in *.
  clearbody d0 d0'. clear P AL BAD. pose proof (pa_alike _ _ _ P0) as AL. rewrite (al_pend _ _ AL), (al_finished _ _ AL).
  destruct (_ || d_finished d0) eqn:FL.
  { destruct (output_same inp d0 d0' room P0) as (o & d1 & d1' & status & E & E' & P1). rewrite E, E'.
    split; [cbn [agree]; split; [exact BS|]; eexists; split; [reflexivity|]; now exists inp|].
    destruct (flush_output_ok d0 room HR) as (o2 & ? & ? & E2 & _ & H2 & _). rewrite E2 in E. injection E as <- _ _. exact H2. }
  apply orb_false_iff in FL. destruct FL as [_ FF]. destruct (pa_inv _ _ _ P0 FF) as (EN & NR & em & em' & pos & st & ts & C & C').
  assert (compress_fuel d0' src = compress_fuel d0 src) as -> by (unfold compress_fuel; now rewrite (al_lsize _ _ AL)).
  destruct (normal_same finish room (compress_fuel d0 src) src [] inp em em' pos st ts d0 d0' C C' AL NR EN BS) as [[-> ->]|(src1 & o1 & inp1 & em1 & em1' & pos1 & st1 & ts1 & d1 & d1' & -> & -> & C1 & C1' & AL1 & NR1 & EN1 & BS1 & HR1)];
    [rewrite len_nil; exact HR|split; [reflexivity|exact I]|].
  cbn [obind]. rewrite (al_lsize _ _ AL1), (al_pend _ _ AL1).
  destruct (finish && (d_lsize d1 =? 0) && _ && _) eqn:LAST.
  - apply andb_true_iff in LAST. destruct LAST as [LAST _]. apply andb_true_iff in LAST. destruct LAST as [LAST _].
    apply andb_true_iff in LAST. destruct LAST as [LF _]. subst finish.
    destruct (flush_same _ _ _ _ _ _ _ _ true (room - len o1) C1 C1' AL1 NR1) as (sent & d5 & d5' & E5 & E5' & AL5 & NR5 & R5 & P5 & L5 & _).
    { destruct EN1. unfold LZ_CODE_BUF_SIZE in *. lia. } { lia. } { intros F; discriminate F. }
    rewrite E5, E5'. cbn [obind fst snd]. rewrite (al_wants _ _ AL5), (al_prev _ _ AL5).
    assert (pair inp1 (set_status d5 true (d_wants d5) (d_prev d5)) (set_status d5' true (d_wants d5) (d_prev d5))) as P6.
    { constructor; [destruct AL5; constructor; al_fields; assumption || reflexivity|]. al_fields. intros F; discriminate F. }
    set (d6 := set_status d5 _ _ _) in *. set (d6' := set_status d5' _ _ _) in *.
    destruct (output_same inp1 d6 d6' (room - len (o1 ++ sent)) P6) as (o & d7 & d7' & status & E & E' & P7). rewrite E, E'.
    split; [cbn [agree]; split; [exact BS1|]; eexists; split; [reflexivity|]; now exists inp1|].
    destruct (flush_output_ok d6 (room - len (o1 ++ sent))) as (o2 & ? & ? & E2 & _ & H2 & _); [rewrite len_app; lia|]. rewrite E2 in E. injection E as <- _ _.
    rewrite !len_app in *. lia.
  - cbn [obind]. assert (pair inp1 d1 d1') as P6.
    { constructor; [exact AL1|]. intros _. split; [exact EN1|]. split; [exact NR1|]. exists em1, em1', pos1, st1, ts1. auto. }
    destruct (output_same inp1 d1 d1' (room - len o1) P6) as (o & d7 & d7' & status & E & E' & P7). rewrite E, E'.
    split; [cbn [agree]; split; [exact BS1|]; eexists; split; [reflexivity|]; now exists inp1|].
    destruct (flush_output_ok d1 (room - len o1)) as (o2 & ? & ? & E2 & _ & H2 & _); [lia|]. rewrite E2 in E. injection E as <- _ _.
    rewrite !len_app in *. lia.
Qed.
Lemma loop_same finish room : forall turns d d' src mv out, mates d d' -> bytes_ok src -> len out <= room ->
  agree (deflate_loop turns d src room finish mv out) (deflate_loop turns d' src room finish mv out).
Proof.
  induction turns as [|turns IH]; intros d d' src mv out M BS HR; cbn [deflate_loop]; [reflexivity|].
  destruct (compress_same d d' src (room - len out) finish M BS) as [A LO]; [lia|].
  destruct (tdefl_compress d src (room - len out) finish) as [[[[status src1] o] d1]|e| |u]; cbn [agree] in A; [|rewrite A; reflexivity..].
  destruct A as (B1 & d1' & -> & M1). cbn [obind].
  assert (forall ret, agree (Ok (ret, src1, out ++ o, d1)) (Ok (ret, src1, out ++ o, d1'))) as K
    by (intros ret; cbn [agree]; split; [exact B1|]; exists d1'; split; [reflexivity|exact M1]).
  destruct (status <? 0); [apply K|]. destruct (status =? TDEFL_DONE); [apply K|]. destruct (_ =? 0); [apply K|].
  destruct (_ && negb finish); [apply K|]. apply IH; [exact M1|exact B1|rewrite len_app; lia].
Qed.
Lemma mz_same d d' src room finish : mates d d' -> bytes_ok src -> 0 <= room ->
  agree (mz_deflate d src room finish) (mz_deflate d' src room finish).
Proof.
  intros M BS HR. unfold mz_deflate. assert (d_prev d' = d_prev d) as -> by (destruct M as [inp [AL _]]; apply AL).
  destruct (_ =? TDEFL_DONE); [cbn [agree]; split; [exact BS|]; exists d'; split; [reflexivity|exact M]|].
  apply loop_same; [exact M|exact BS|rewrite len_nil; exact HR].
Qed.
Lemma chunk_same v finish : forall turns d d' src out, mates d d' -> bytes_ok src ->
  agree (deflate_chunk turns v d src finish out) (deflate_chunk turns v d' src finish out).
Proof.
  induction turns as [|turns IH]; intros d d' src out M BS; cbn [deflate_chunk]; [reflexivity|].
  pose proof (mz_same d d' src CHUNK finish M BS ltac:(rewrite CHUNK_eq; lia)) as A.
  destruct (mz_deflate d src CHUNK finish) as [[[[ret src1] o] d1]|e| |u]; cbn [agree] in A; [|rewrite A; reflexivity..].
  destruct A as (B1 & d1' & -> & M1). cbn [obind]. destruct (_ && (ret =? MZ_STREAM_ERROR)); [reflexivity|].
  destruct (_ =? 0); [now apply IH|]. cbn [agree]. split; [exact B1|]. exists d1'. split; [reflexivity|exact M1].
Qed.
Lemma chunks_same v : forall turns d d' input out, mates d d' -> bytes_ok input ->
  deflate_chunks turns v d' input out = deflate_chunks turns v d input out.
Proof.
  induction turns as [|turns IH]; intros d d' input out M BI; cbn [deflate_chunks]; [reflexivity|]. cbv zeta.
  set (finish := len (ztake CHUNK input) <? CHUNK).
  pose proof (chunk_same v finish (length input + 300) d d' (ztake CHUNK input) out M (bytes_ok_ztake _ _ BI)) as A.
  destruct (deflate_chunk (length input + 300) v d (ztake CHUNK input) finish out) as [[[[ret src1] o] d1]|e| |u]; cbn [agree] in A; [|rewrite A; reflexivity..].
  destruct A as (B1 & d1' & -> & M1). cbn [obind]. destruct (_ && negb (len src1 =? 0)); [reflexivity|].
  destruct finish; [reflexivity|]. apply IH; [exact M1|now apply bytes_ok_zdrop].
Qed.
Lemma new_cinv dict next buf : byte_cells buf -> cinv [] [] 0 0 [] (new_tdefl dict next buf).
Proof.
  intros BC. constructor; cbn [new_tdefl d_lsize d_lpos d_dsize d_start d_dict d_nb d_bb]; try reflexivity; try lia.
  - constructor.
  - apply ring_nil.
  - apply codes_inv_start; try reflexivity. exact BC.
  - constructor.
  - constructor.
  - apply pre_nil.
Qed.
Theorem heap_irrelevant v dict next buf dict' next' buf' b : byte_cells buf -> byte_cells buf' -> bytes_ok b ->
  npy_deflate v dict' next' buf' b = npy_deflate v dict next buf b.
Proof.
  intros BC BC' BB. unfold npy_deflate. apply chunks_same; [|exact BB]. exists []. constructor.
  - constructor; reflexivity.
  - intros _. split; [split; vm_compute; congruence|]. split.
    + constructor; [intros i (x & H1 & H2 & _); rewrite len_nil in H2; lia..|]. intros h _. left. apply arr_get_empty.
    + exists [], [], 0, 0, []. split; now apply new_cinv.
Qed.
