(** tinfl reads every kind of block. *)
From Coq Require Import ZArith List Bool Lia.
From Verif Require Import Base BaseFacts Arr DeflateSpec Tinfl BitFacts HuffFacts HuffBuild InflCopy InflBits InflRun.
Import ListNotations.
Open Scope Z_scope.

Lemma lsb8_inj x y : is_byte x -> is_byte y -> lsb_bits 8 x = lsb_bits 8 y -> x = y.
Proof.
  unfold is_byte. intros Hx Hy E. apply (f_equal bval) in E. rewrite !bval_lsb in E.
  change (2 ^ Z.of_nat 8) with 256 in E. rewrite !Z.mod_small in E by lia. exact E.
Qed.
Lemma bits_of_prefix data : forall inp rest, bytes_ok data -> bytes_ok inp ->
  bits_of inp = bits_of data ++ rest -> exists t, inp = data ++ t /\ bits_of t = rest.
Proof.
  induction data as [|x data IH]; intros inp rest Hd Hi E.
  - exists inp. auto.
  - inversion Hd as [|? ? Hx Hd']; subst. rewrite bits_of_cons, <- app_assoc in E.
    destruct inp as [|y inp].
    { apply (f_equal (@length bool)) in E. rewrite app_length, lsb_length in E. cbn in E. lia. }
    inversion Hi as [|? ? Hy Hi']; subst. rewrite bits_of_cons in E.
    apply app_inj_len in E; [|now rewrite !lsb_length]. destruct E as [E1 E2].
    apply lsb8_inj in E1; auto. subst y.
    destruct (IH inp rest Hd' Hi' E2) as (t & -> & Et). exists t. auto.
Qed.
Lemma ahead_mod F s : wf s -> len (ahead F s) mod 8 = ti_nb s mod 8.
Proof.
  intros (Hn & _). unfold ahead. rewrite len_app, bits_of_len, lsb_len, Z2Nat.id by lia.
  rewrite Z.mul_comm, Z_mod_plus_full. reflexivity.
Qed.

(** ** A stream makes at most 129 bytes out of each bit *)
Lemma block_slow pos out b r : block_bits pos out b r -> len r <= len out + 129 * len b.
Proof.
  destruct 1 as [pad data Hp Hl8 H64 Hd|ts bs r Hts HX|nl nd nc CL lens cls LL DL ts bs r Hnl Hnd Hnc HC H7 VC Hz HLB EL ED Ecls V0 V1 Hts HX].
  - rewrite !len_app, bits_of_len. pose proof (len_nonneg _ pad). pose proof (len_nonneg _ data).
    rewrite !lsb_len. lia.
  - apply (tokens_slow _ _ _ _ Hts) in HX. rewrite len_app, lsb_len. lia.
  - apply (tokens_slow _ _ _ _ Hts) in HX. rewrite !len_app, !lsb_len.
    pose proof (len_nonneg _ cls). pose proof (len_nonneg _ lens). lia.
Qed.
Lemma stream_slow pos out b r : stream_bits pos out b r -> len r <= len out + 129 * len b.
Proof.
  induction 1 as [pos out b r HB|pos out b out1 bs r HB HS IH].
  - apply block_slow in HB. rewrite len_cons. lia.
  - apply block_slow in HB. rewrite len_cons, len_app. lia.
Qed.
Section Blocks.
Variables (D : bytes) (K : Z -> Z).
Hypothesis HK : slow K.
Local Notation st := (InflBits.st D K).
Local Notation reads := (InflBits.reads D K).
Local Notation leads := (InflBits.leads D K).
Variable f : nat.
Hypothesis Hf : (2 <= f)%nat.

(** ** Stored blocks *)
Lemma raw_byte_ok v rest : is_byte v -> reads (raw_byte f) (lsb_bits 8 v ++ rest) v rest.
Proof.
  intros Hv q F s out HKo S. unfold raw_byte, tbind at 1. cbn [num_bits res_bind].
  destruct (ti_nb s =? 0) eqn:E; [|apply (get_bits_lsb D K f Hf 8 v rest ltac:(lia) Hv q F s out HKo S)].
  apply Z.eqb_eq in E.
  eapply leads_imp; [apply (get_byte_st D K f Hf q F s _ out S)|].
  { rewrite E, len_app, lsb_len. pose proof (len_nonneg _ rest). lia. }
  intros q' F' x s' (s0 & t & S0 & N0 & I0 & ->). rewrite E in N0.
  destruct S0 as ((Hn & Hb & Hi) & (HF & Ea & _) & W).
  unfold ahead in Ea. rewrite N0, I0 in Ea. cbn [Z.to_nat lsb_bits app] in Ea.
  replace (lsb_bits 8 v) with (bits_of [v]) in Ea by (cbn [bits_of flat_map]; now rewrite app_nil_r).
  rewrite I0 in Hi. inversion Hi as [|? ? Hx Hi']; subst.
  destruct (bits_of_prefix [v] (x :: t ++ F') rest) as (t' & Ei & Et); auto.
  { constructor; [assumption|constructor]. }
  { constructor; [assumption|]. apply bytes_ok_app. auto. }
  injection Ei as -> Ei. split; [reflexivity|]. split; [|split; [split; [exact HF|split; [|exact HKo]]|exact W]].
  - split; [exact Hn|]. split; [exact Hb|exact Hi'].
  - unfold ahead. cbn [set_in ti_nb ti_bb ti_in]. rewrite N0, Ei. exact Et.
Qed.
Lemma bits_stay n m (x rest : list bool) : K (m - 259) <= len rest -> m <= n + 259 + 129 * len x -> K n <= len (x ++ rest).
Proof.
  intros H1 H2. rewrite len_app. pose proof (len_nonneg _ x). destruct HK as [HA HS].
  destruct (Z.le_gt_cases (m - 259) n) as [H4|H4]; [pose proof (HA _ _ H4); lia|].
  pose proof (HS n (m - 259 - n) (len x) ltac:(lia)) as H3. replace (n + (m - 259 - n)) with (m - 259) in H3 by lia. lia.
Qed.
Lemma stored_bits_ok rest : forall data turns q F s out, bytes_ok data -> K (len (out ++ data) - 259) <= len rest ->
  st q F s (bits_of data ++ rest) out -> prefix (out ++ data) D -> len data <= Z.of_nat turns ->
  leads (fun q' F' c' s' => exists d1 d2, data = d1 ++ d2 /\ c' = len d2 /\ st q' F' s' (bits_of d2 ++ rest) (out ++ d1)
             /\ (d2 = [] \/ ti_nb s' = 0)) q F (stored_bits turns f (len data) s).
Proof.
  induction data as [|x data IH]; intros turns q F s out Hd HKR S HP Ht.
  - assert (stored_bits turns f (len []) s = RDone 0 s) as -> by (destruct turns; reflexivity).
    constructor. exists [], []. split; [reflexivity|]. split; [reflexivity|]. rewrite app_nil_r. auto.
  - rewrite len_cons in *. pose proof (len_nonneg _ data) as Hl. destruct turns as [|turns]; [lia|].
    cbn [stored_bits]. unfold tbind at 1. cbn [num_bits res_bind].
    destruct ((1 + len data =? 0) || (ti_nb s =? 0)) eqn:E.
    + constructor. exists [], (x :: data). rewrite len_cons. split; [reflexivity|].
      split; [reflexivity|]. rewrite app_nil_r. split; [exact S|]. right. lia.
    + inversion Hd as [|? ? Hx Hd']; subst.
      rewrite bits_of_cons, <- app_assoc in S.
      eapply leads_reads; [apply (get_bits_lsb D K f Hf 8 x); [lia|exact Hx]|exact S|eapply bits_stay; [exact HKR|rewrite len_app, len_cons, bits_of_len; lia]|]. clear S s E q F. intros q F s S.
      replace (out ++ x :: data) with ((out ++ [x]) ++ data) in HP by (now rewrite <- app_assoc).
      eapply leads_bind; [apply put_byte_ok; [exact HK|exact Hf|exact S|]|].
      { eapply prefix_trans; [|exact HP]. apply prefix_app. }
      clear S s q F. intros q F [] s S. cbv beta in S. replace (1 + len data - 1) with (len data) by lia.
      eapply leads_imp; [apply IH; eauto; [now rewrite <- app_assoc|lia]|].
      intros q2 F2 c' s' (d1 & d2 & -> & -> & S' & Hz). exists (x :: d1), d2. split; [reflexivity|]. split; [reflexivity|].
      split; [|exact Hz]. now rewrite <- app_assoc in S'.
Qed.
Lemma wait_input_ok q F s bits out : st q F s bits out -> ti_nb s < len bits -> ti_cur s < 32768 ->
  leads (fun q' F' _ s' => st q' F' s' bits out /\ ti_in s' <> [] /\ ti_cur s' < 32768 /\ ti_nb s' = ti_nb s) q F (wait_input f s).
Proof.
  intros S Hl Hc. destruct (ti_in s) as [|x t] eqn:Ei.
  - pose proof (more_left _ _ _ _ _ _ _ S Hl Ei) as HF. destruct f as [|f']; [lia|]. cbn [wait_input]. rewrite Ei.
    eapply resume_need; eauto. intros q' F' s' S' Hi' Hc' Hn'. destruct Hi' as [Hi'|(_ & _ & Hi')]; [|lia].
    destruct (ti_in s') as [|x t] eqn:Ei'; [congruence|].
    assert (wait_input f' s' = RDone tt s') as -> by (destruct f'; cbn [wait_input]; rewrite Ei'; reflexivity).
    constructor. rewrite Ei'. auto.
  - assert (wait_input f s = RDone tt s) as -> by (destruct f; cbn [wait_input]; rewrite Ei; reflexivity).
    constructor. rewrite Ei. split; [assumption|]. split; [discriminate|]. auto.
Qed.
Lemma stored_bytes_ok rest : forall turns data q F s out, bytes_ok data -> K (len (out ++ data) - 259) <= len rest ->
  st q F s (bits_of data ++ rest) out -> prefix (out ++ data) D -> len data <= Z.of_nat turns ->
  (data = [] \/ ti_nb s = 0) ->
  leads (fun q' F' _ s' => st q' F' s' rest (out ++ data)) q F (stored_bytes turns f (len data) s).
Proof.
  induction turns as [|turns IH]; intros data q F s out Hd HKR S HP Ht Hz.
  - pose proof (len_nonneg _ data) as Hl. assert (data = []) by (apply len_0_nil; lia). subst.
    cbn [stored_bytes]. rewrite len_nil, app_nil_r. constructor. exact S.
  - destruct data as [|x data'] eqn:Ed.
    { cbn [stored_bytes]. rewrite len_nil, app_nil_r. constructor. exact S. }
    rewrite <- Ed in *. assert (1 <= len data) as Hl by (rewrite Ed, len_cons; pose proof (len_nonneg _ data'); lia).
    destruct Hz as [Hz|Hz]; [congruence|].
    cbn [stored_bytes]. replace (len data =? 0) with false by lia.
    eapply leads_bind; [apply wait_room_ok; [exact Hf|exact S|]|].
    { destruct HP as [rr ->]. rewrite !len_app. pose proof (len_nonneg _ rr). lia. }
    clear S. intros q1 F1 [] s1 (S1 & Hc & Hn1). cbv beta in *.
    eapply leads_bind; [apply wait_input_ok; [exact S1| |exact Hc]|].
    { rewrite Hn1, Hz, len_app, bits_of_len. pose proof (len_nonneg _ rest). lia. }
    clear S1 Hc. intros q2 F2 [] s2 (S2 & Hne & Hc & Hn2). cbv beta in *. unfold TINFL_LZ_DICT_SIZE.
    destruct S2 as ((Wn & Wb & Wi) & (WF & Ea & _) & Win & _ & Wq).
    unfold ahead in Ea. rewrite Hn2, Hn1, Hz in Ea. cbn [Z.to_nat lsb_bits app] in Ea.
    destruct (bits_of_prefix data (ti_in s2 ++ F2) rest Hd) as (t & Ei & Et); [apply bytes_ok_app; auto|exact Ea|].
    assert (0 <= ti_cur s2) as C0 by apply Win.
    assert (1 <= len (ti_in s2)) as Hil.
    { destruct (ti_in s2) as [|y l]; [congruence|]. rewrite len_cons. pose proof (len_nonneg _ l). lia. }
    set (n := Z.min (Z.min (32768 - ti_cur s2) (len (ti_in s2))) (len data)).
    assert (1 <= n <= len data /\ n <= 32768 - ti_cur s2 /\ n <= len (ti_in s2)) as Hn by lia.
    replace ((n <? 0) || (ti_cur s2 <? 0) || (ti_cur s2 + n >? 32768) || (n >? len (ti_in s2))) with false by lia.
    assert (ztake n (ti_in s2) = ztake n data) as Et1.
    { transitivity (ztake n (ti_in s2 ++ F2)); [symmetry; apply ztake_app_le; lia|]. rewrite Ei. apply ztake_app_le; lia. }
    assert (zdrop n (ti_in s2) ++ F2 = zdrop n data ++ t) as Et2.
    { transitivity (zdrop n (ti_in s2 ++ F2)); [symmetry; apply zdrop_app_le; lia|]. rewrite Ei. apply zdrop_app_le; lia. }
    rewrite Et1. replace (len data - n) with (len (zdrop n data)) by (rewrite len_zdrop; lia).
    assert (bytes_ok (ztake n data) /\ bytes_ok (zdrop n data)) as [Hd1 Hd2]
      by (apply bytes_ok_app; rewrite ztake_zdrop; exact Hd).
    assert (prefix ((out ++ ztake n data) ++ zdrop n data) D) as HP1 by (rewrite <- app_assoc, ztake_zdrop; exact HP).
    eapply leads_imp; [apply (IH _ _ _ _ (out ++ ztake n data)); auto|].
    + rewrite <- app_assoc, ztake_zdrop. exact HKR.
    + split; [|split; [split; [exact WF|split]|split; [|split]]].
      * split; [exact Wn|]. split; [exact Wb|]. cbn [ti_in].
        rewrite <- (ztake_zdrop _ n (ti_in s2)) in Wi. apply bytes_ok_app in Wi. apply Wi.
      * unfold ahead. cbn [ti_nb ti_bb ti_in]. rewrite Hn2, Hn1, Hz, Et2, bits_of_app, Et. reflexivity.
      * eapply bits_stay; [exact HKR|]. rewrite !len_app, bits_of_len, len_zdrop, len_ztake. lia.
      * cbn [ti_dict ti_cur].
        assert (len (ztake n data) = n) as El by (rewrite len_ztake; lia).
        rewrite <- El at 2. apply win_all; [exact Win|lia].
      * eapply prefix_trans; [|exact HP1]. apply prefix_app.
      * rewrite len_app. pose proof (len_nonneg _ (ztake n data)). lia.
    + rewrite len_zdrop. lia.
    + right. cbn [ti_nb]. lia.
    + cbv beta. intros q' F' [] s' S'. now rewrite <- app_assoc, ztake_zdrop in S'.
Qed.
Lemma lxor_ffff m : 0 <= m < 65536 -> Z.lxor 0xFFFF m = 65535 - m.
Proof.
  intros Hm. assert (m + Z.lxor 65535 m = 65535); [|lia].
  rewrite Z.add_nocarry_lxor.
  - rewrite (Z.lxor_comm 65535), <- Z.lxor_assoc, Z.lxor_nilpotent, Z.lxor_0_l. reflexivity.
  - apply Z.bits_inj'. intros n Hn. rewrite Z.bits_0, Z.land_spec, Z.lxor_spec.
    change 65535 with (Z.ones 16).
    destruct (Z_lt_ge_dec n 16).
    + rewrite Z.ones_spec_low by lia. destruct (Z.testbit m n); reflexivity.
    + rewrite <- (Z.mod_small m (2 ^ 16)) by exact Hm. rewrite Z.mod_pow2_bits_high by lia. reflexivity.
Qed.
Lemma lsb16 v : lsb_bits 16 v = lsb_bits 8 (v mod 256) ++ lsb_bits 8 (v / 256).
Proof.
  change 16%nat with (8 + 8)%nat. rewrite lsb_bits_app. f_equal. symmetry. apply (lsb_mod 8).
Qed.
Lemma word16 v : 0 <= v < 65536 -> Z.lor (v mod 256) (Z.shiftl (v / 256) 8) = v.
Proof.
  intros Hv. rewrite Z.shiftl_mul_pow2 by lia. pose proof (Z.mod_pos_bound v 256 ltac:(lia)).
  rewrite lor_low_high by (change (2 ^ 8) with 256; lia). change (2 ^ 8) with 256.
  pose proof (Z.div_mod v 256 ltac:(lia)). lia.
Qed.
Lemma stored_block_ok pad data rest q F s out turns : K (len (out ++ data) - 259) <= len rest ->
  len pad < 8 -> len data < 65536 -> bytes_ok data -> len rest mod 8 = 0 ->
  st q F s (pad ++ lsb_bits 16 (len data) ++ lsb_bits 16 (65535 - len data) ++ bits_of data ++ rest) out ->
  prefix (out ++ data) D -> len data <= Z.of_nat turns ->
  leads (fun q' F' _ s' => st q' F' s' rest (out ++ data)) q F (stored_block turns f s).
Proof.
  intros HKR Hpad Hlen Hd Hrest S HP Ht. pose proof (len_nonneg _ data) as Hl0. pose proof (len_nonneg _ pad) as Hp0.
  unfold stored_block, tbind at 1. cbn [num_bits res_bind].
  assert (Z.land (ti_nb s) 7 = len pad) as ->.
  { change 7 with (Z.ones 3). rewrite Z.land_ones by lia. change (2 ^ 3) with 8.
    destruct S as (W & (_ & Ea & _) & _). rewrite <- (ahead_mod F) by assumption. rewrite Ea.
    rewrite !len_app, bits_of_len, !lsb_len. change (Z.of_nat 16) with 16.
    replace (len pad + (16 + (16 + (8 * len data + len rest)))) with (len pad + len rest + (4 + len data) * 8) by lia.
    rewrite Z_mod_plus_full, Zplus_mod, Hrest, Z.add_0_r, Z.mod_mod by lia. apply Z.mod_small. lia. }
  assert (K (len out) <= len (bits_of data ++ rest)) as HKo.
  { eapply bits_stay; [exact HKR|]. rewrite len_app, bits_of_len. lia. }
  eapply leads_reads; [apply (get_bits_ok D K f Hf (len pad) pad); [reflexivity|lia]|exact S|more_bits|]. clear S s q F. intros q F s S.
  rewrite (lsb16 (len data)), (lsb16 (65535 - len data)), <- !app_assoc in S.
  set (m := 65535 - len data) in *.
  assert (forall v, 0 <= v < 65536 -> is_byte (v mod 256) /\ is_byte (v / 256)) as HB.
  { intros v Hv. split; [apply Z.mod_pos_bound; lia|]. split; [apply Z.div_pos; lia|]. apply Z.div_lt_upper_bound; lia. }
  eapply leads_reads; [apply (raw_byte_ok (len data mod 256)); apply HB; lia|exact S|more_bits|]. clear S s q F. intros q F s S.
  eapply leads_reads; [apply (raw_byte_ok (len data / 256)); apply HB; lia|exact S|more_bits|]. clear S s q F. intros q F s S.
  eapply leads_reads; [apply (raw_byte_ok (m mod 256)); apply HB; lia|exact S|more_bits|]. clear S s q F. intros q F s S.
  eapply leads_reads; [apply (raw_byte_ok (m / 256)); apply HB; lia|exact S|more_bits|]. clear S s q F. intros q F s S.
  rewrite !word16 by lia. rewrite lxor_ffff by lia.
  replace (len data =? 65535 - m) with true by lia. cbn [negb].
  eapply leads_bind; [apply (stored_bits_ok rest data turns q F s out); auto|].
  intros q2 F2 c' s' (d1 & d2 & -> & -> & S' & Hz). apply bytes_ok_app in Hd.
  eapply leads_imp; [apply (stored_bytes_ok rest turns d2 q2 F2 s' (out ++ d1)); auto|].
  - apply Hd.
  - now rewrite <- app_assoc.
  - now rewrite <- app_assoc.
  - rewrite len_app in Ht. pose proof (len_nonneg _ d1). lia.
  - cbv beta. intros q' F' [] s3 S2. now rewrite <- app_assoc in S2.
Qed.

(** ** Compressed blocks *)
Lemma tokens_length LL DL ts bs : lens_ok LL -> tokens_bits LL DL ts bs -> (length ts < length bs)%nat.
Proof.
  intros HL. induction 1 as [Hin|t b ts bs Ht Hts IH].
  - rewrite codeword_length. destruct Hin. cbn. lia.
  - rewrite app_length. cbn [length]. assert (1 <= length b)%nat; [|lia].
    destruct Ht as [c Hc Hin|k lb lx le j db dx de Hk Hle Hin Hj Hde Hin2]; rewrite ?app_length, codeword_length; destruct Hin; lia.
Qed.
Lemma fixed_lengths_valid : valid_code fixed_lengths.
Proof.
  split; [|left; reflexivity]. unfold fixed_lengths. rewrite !Forall_app.
  assert (forall x n, 0 <= x <= 15 -> Forall (fun y => 0 <= y <= 15) (repeat x n)) as H.
  { intros x n Hx. induction n; cbn [repeat]; constructor; auto. }
  repeat split; apply H; lia.
Qed.
Lemma fixed_distances_valid : valid_code fixed_distances.
Proof.
  split; [|left; reflexivity]. unfold fixed_distances.
  generalize 32%nat as n. intros n. induction n; cbn [repeat]; constructor; auto; lia.
Qed.
Lemma compressed_ok LL DL h0 h1 turns ts bs rest out r q F s : K (len r - 259) <= len rest ->
  valid_code LL -> valid_code DL -> len LL <= 288 -> len DL <= 32 -> table_ok LL h0 -> table_ok DL h1 ->
  tokens_bits LL DL ts bs -> expands out ts r -> prefix r D -> st q F s (bs ++ rest) out ->
  (length bs <= turns)%nat -> leads (fun q' F' _ s' => st q' F' s' rest r) q F (codes turns f h0 h1 s).
Proof.
  intros HKR V0 V1 H0 H1 T0 T1 Hts HX HP S Ht.
  eapply (codes_ok D K HK LL DL h0 h1 V0 V1 H0 H1 T0 T1 f Hf turns); eauto.
  pose proof (tokens_length LL DL ts bs ltac:(apply V0) Hts). lia.
Qed.
Lemma reads_table L h : (forall s, build_table L s = RDone h s) -> forall bits, reads (build_table L) bits h bits.
Proof. intros H bits. apply reads_now. intros F d c s A. exists s. rewrite H. auto. Qed.
Lemma fixed_block_ok ts bs rest out r q F s turns : K (len r - 259) <= len rest ->
  tokens_bits fixed_lengths fixed_distances ts bs -> expands out ts r -> prefix r D -> st q F s (bs ++ rest) out ->
  (length bs <= turns)%nat -> leads (fun q' F' _ s' => st q' F' s' rest r) q F (fixed_block turns f s).
Proof.
  intros HKR Hts HX HP S Ht. unfold fixed_block.
  pose proof fixed_lengths_valid as V0. pose proof fixed_distances_valid as V1.
  destruct (build_table_any fixed_distances ltac:(apply V1) V1 ltac:(vm_compute; discriminate)) as (h1 & T1 & E1).
  destruct (build_table_any fixed_lengths ltac:(apply V0) V0 ltac:(vm_compute; discriminate)) as (h0 & T0 & E0).
  pose proof (proj2 (still_left K HK _ _ f Hf _ _ _ _ _ Hts HX HKR)) as HKo.
  eapply leads_reads; [apply (reads_table _ _ E1)|exact S|more_bits|]. clear S s q F. intros q F s S.
  eapply leads_reads; [apply (reads_table _ _ E0)|exact S|more_bits|]. clear S s q F. intros q F s S.
  eapply (compressed_ok fixed_lengths fixed_distances); eauto; try assumption; vm_compute; discriminate.
Qed.

(** ** Code lengths *)
Lemma read_code_sizes_ok CL rest : Forall (fun x => 0 <= x <= 7) CL -> forall order sizes,
  reads (read_code_sizes f order sizes)
    (flat_map (fun s => lsb_bits 3 (code_len CL s)) order ++ rest)
    (fold_left (fun l s => nth_update l (Z.to_nat s) (code_len CL s)) order sizes) rest.
Proof.
  intros H7 order. induction order as [|i order IH]; intros sizes; cbn [read_code_sizes flat_map fold_left].
  - apply reads_ret.
  - rewrite <- app_assoc. eapply reads_bind; [|  |apply IH]; [intros; more_bits|].
    apply (get_bits_lsb D K f Hf 3 (code_len CL i)); [lia|]. change (2 ^ 3) with 8.
    assert (0 <= code_len CL i <= 7); [|lia].
    unfold code_len. destruct (lt_dec (Z.to_nat i) (length CL)).
    + rewrite Forall_forall in H7. apply H7. now apply nth_In.
    + rewrite nth_overflow by lia. lia.
Qed.
Lemma fold_update_length (g : Z -> Z) order : forall l,
  length (fold_left (fun l s => nth_update l (Z.to_nat s) (g s)) order l) = length l.
Proof. induction order as [|i order IH]; intros l; cbn [fold_left]; [reflexivity|]. rewrite IH. apply nth_update_length. Qed.
Lemma fold_update_nth (g : Z -> Z) order : forall l i, Forall (fun s => 0 <= s < len l) order -> 0 <= i < len l ->
  nth (Z.to_nat i) (fold_left (fun l s => nth_update l (Z.to_nat s) (g s)) order l) 0
  = if existsb (Z.eqb i) order then g i else nth (Z.to_nat i) l 0.
Proof.
  induction order as [|s order IH]; intros l i Ho Hi; cbn [fold_left existsb]; [reflexivity|].
  inversion Ho as [|? ? Hs Ho']; subst.
  assert (len (nth_update l (Z.to_nat s) (g s)) = len l) as El by (unfold len; now rewrite nth_update_length).
  rewrite IH by (rewrite El; assumption).
  rewrite nth_nth_update by (unfold len in Hs; lia).
  destruct (existsb (Z.eqb i) order); [now rewrite orb_true_r|]. rewrite orb_false_r.
  destruct (i =? s) eqn:E.
  - apply Z.eqb_eq in E. subst. now rewrite Nat.eqb_refl.
  - replace (Nat.eqb (Z.to_nat s) (Z.to_nat i)) with false by (symmetry; apply Nat.eqb_neq; lia). reflexivity.
Qed.
Lemma code_sizes_eq CL nc : len CL = 19 -> 4 <= nc <= 19 ->
  (forall i, nc <= i -> forall s, znth length_order i = Some s -> code_len CL s = 0) ->
  fold_left (fun l s => nth_update l (Z.to_nat s) (code_len CL s)) (ztake nc length_order) (repeat 0 19) = CL.
Proof.
  intros HC Hnc Hz. apply (nth_ext _ _ 0 0).
  - rewrite fold_update_length, repeat_length. unfold len in HC. lia.
  - intros n Hn. rewrite fold_update_length, repeat_length in Hn.
    replace n with (Z.to_nat (Z.of_nat n)) by lia.
    assert (Forall (fun s => 0 <= s < 19) length_order) as F by (unfold length_order; repeat constructor; lia).
    rewrite fold_update_nth.
    + destruct (existsb _ _) eqn:E; [reflexivity|].
      rewrite nth_repeat. symmetry. change (code_len CL (Z.of_nat n) = 0).
      assert (In (Z.of_nat n) length_order) as Hin.
      { assert (forallb (fun i => existsb (Z.eqb i) length_order) (zseq 0 19) = true) as A by reflexivity.
        rewrite forallb_forall in A. specialize (A (Z.of_nat n)). rewrite zseq_in in A. specialize (A ltac:(lia)).
        apply existsb_exists in A. destruct A as (x & Hx & Ex). apply Z.eqb_eq in Ex. now subst. }
      rewrite <- (ztake_zdrop _ nc length_order) in Hin. apply in_app_or in Hin. destruct Hin as [Hin|Hin].
      * assert (existsb (Z.eqb (Z.of_nat n)) (ztake nc length_order) = true); [|congruence].
        apply existsb_exists. exists (Z.of_nat n). split; [assumption|apply Z.eqb_refl].
      * apply In_nth_error in Hin. destruct Hin as [j Hj].
        apply (Hz (nc + Z.of_nat j)); [lia|].
        unfold znth. replace (nc + Z.of_nat j <? 0) with false by (symmetry; apply Z.ltb_ge; lia).
        rewrite zdrop_skipn in Hj. rewrite <- Hj.
        rewrite <- (firstn_skipn (Z.to_nat nc) length_order) at 1.
        assert (length (firstn (Z.to_nat nc) length_order) = Z.to_nat nc) as Fl
          by (rewrite firstn_length; change (length length_order) with 19%nat; lia).
        rewrite nth_error_app2 by lia. f_equal. lia.
    + change (len (repeat 0 19)) with 19.
      rewrite <- (ztake_zdrop _ nc length_order) in F. apply Forall_app in F. apply F.
    + change (len (repeat 0 19)) with 19. lia.
Qed.
Lemma lengths_grow CL l b r : lengths_bits CL l b r -> len l <= len r /\ (len l = len r -> b = []).
Proof.
  induction 1 as [l|l x b r Hx Hin H [IH1 IH2]|l x e b r Hin He H [IH1 IH2]|l e b r Hin He H [IH1 IH2]|l e b r Hin He H [IH1 IH2]].
  - split; [lia|reflexivity].
  - rewrite len_app in IH1. change (len [x]) with 1 in IH1. split; intros; lia.
  - rewrite !len_app, len_zrepeat in IH1. rewrite len_app. change (len [x]) with 1 in *. split; intros; lia.
  - rewrite len_app, len_zrepeat in IH1. split; intros; lia.
  - rewrite len_app, len_zrepeat in IH1. split; intros; lia.
Qed.
Lemma read_lengths_ok CL h rest total : valid_code CL -> len CL = 19 -> table_ok CL h ->
  forall turns acc b all, lengths_bits CL acc b all -> len all = total -> total <= 320 ->
  total - len acc <= Z.of_nat turns ->
  reads (read_lengths turns f h total acc) (b ++ rest) all rest.
Proof.
  intros V HC HT. pose proof (valid_kraft CL V) as KC. assert (lens_ok CL) as LO by apply V.
  assert (len CL <= 512) as H512 by lia.
  induction turns as [|turns IH]; intros acc b all H Hall H320 Ht.
  - destruct (lengths_grow _ _ _ _ H) as [G1 G2]. cbn [read_lengths].
    replace (len acc <? total) with false by lia. rewrite G2 in * by lia.
    inversion H; subst; try (rewrite app_nil_l; apply reads_ret).
    all: exfalso; match goal with E : _ ++ _ = [] |- _ => apply app_eq_nil in E; destruct E as [E _];
      apply (f_equal (@length bool)) in E; rewrite codeword_length in E; cbn in E end.
    all: match goal with Hi : in_code _ _ |- _ => destruct Hi; lia end.
  - cbn [read_lengths]. destruct (len acc <? total) eqn:E.
    + assert (forall x tail, in_code CL x -> reads (huff_decode f h) (codeword CL x ++ tail) x tail) as HD
        by (intros; eapply huff_decode_ok; eauto).
      destruct H as [l|l x b r Hx Hin H|l x e b r Hin He H|l e b r Hin He H|l e b r Hin He H].
      * lia.
      * rewrite <- app_assoc. eapply reads_bind; [|apply HD; exact Hin|]; [intros; more_bits|].
        replace (x <? 16) with true by lia. apply IH; auto. rewrite len_app. change (len [x]) with 1. lia.
      * rewrite <- !app_assoc. eapply reads_bind; [|apply HD; exact Hin|]; [intros; more_bits|].
        change (16 <? 16) with false. change (16 =? 16) with true. cbv iota.
        replace (len (l ++ [x]) =? 0) with false by (rewrite len_app; change (len [x]) with 1; pose proof (len_nonneg _ l); lia).
        cbn [andb]. change (Z.to_nat (16 - 16)) with 0%nat. cbn [nth].
        eapply reads_bind; [|apply (get_bits_lsb D K f Hf 2 e); [lia|exact He]|]; [intros; more_bits|].
        destruct (lengths_grow _ _ _ _ H) as [G1 _]. rewrite !len_app, len_zrepeat in G1. change (len [x]) with 1 in G1.
        unfold LEN_CODES_SIZE. rewrite len_app. change (len [x]) with 1.
        replace (len l + 1 + (e + 3) >? 457) with false by lia.
        rewrite last_last. replace (e + 3) with (3 + e) by lia. rewrite <- app_assoc.
        apply IH; auto. rewrite len_app in *. change (len [x]) with 1 in *. rewrite len_app, len_zrepeat. change (len [x]) with 1. lia.
      * rewrite <- !app_assoc. eapply reads_bind; [|apply HD; exact Hin|]; [intros; more_bits|].
        change (17 <? 16) with false. change (17 =? 16) with false. cbn [andb]. cbv iota.
        change (Z.to_nat (17 - 16)) with 1%nat. cbn [nth].
        eapply reads_bind; [|apply (get_bits_lsb D K f Hf 3 e); [lia|exact He]|]; [intros; more_bits|].
        destruct (lengths_grow _ _ _ _ H) as [G1 _]. rewrite len_app, len_zrepeat in G1.
        unfold LEN_CODES_SIZE. replace (len l + (e + 3) >? 457) with false by lia.
        replace (e + 3) with (3 + e) by lia. apply IH; auto. rewrite len_app, len_zrepeat. lia.
      * rewrite <- !app_assoc. eapply reads_bind; [|apply HD; exact Hin|]; [intros; more_bits|].
        change (18 <? 16) with false. change (18 =? 16) with false. cbn [andb]. cbv iota.
        change (Z.to_nat (18 - 16)) with 2%nat. cbn [nth].
        eapply reads_bind; [|apply (get_bits_lsb D K f Hf 7 e); [lia|exact He]|]; [intros; more_bits|].
        destruct (lengths_grow _ _ _ _ H) as [G1 _]. rewrite len_app, len_zrepeat in G1.
        unfold LEN_CODES_SIZE. replace (len l + (e + 11) >? 457) with false by lia.
        replace (e + 11) with (11 + e) by lia. apply IH; auto. rewrite len_app, len_zrepeat. lia.
    + destruct (lengths_grow _ _ _ _ H) as [G1 G2]. rewrite G2 in * by lia.
      inversion H; subst; try (rewrite app_nil_l; apply reads_ret).
      all: exfalso; match goal with E : _ ++ _ = [] |- _ => apply app_eq_nil in E; destruct E as [E _];
        apply (f_equal (@length bool)) in E; rewrite codeword_length in E; cbn in E end.
      all: match goal with Hi : in_code _ _ |- _ => destruct Hi; lia end.
Qed.
Lemma dynamic_block_ok nl nd nc CL lens cls LL DL ts bs rest out r q F s turns : K (len r - 259) <= len rest ->
  257 <= nl <= 288 -> 1 <= nd <= 32 -> 4 <= nc <= 19 ->
  len CL = 19 -> Forall (fun x => 0 <= x <= 7) CL -> valid_code CL ->
  (forall i, nc <= i -> forall s, znth length_order i = Some s -> code_len CL s = 0) ->
  lengths_bits CL [] lens (LL ++ DL) -> len LL = nl -> len DL = nd ->
  cls = flat_map (fun s => lsb_bits 3 (code_len CL s)) (ztake nc length_order) ->
  valid_code LL -> valid_code DL ->
  tokens_bits LL DL ts bs -> expands out ts r -> prefix r D ->
  st q F s (lsb_bits 5 (nl - 257) ++ lsb_bits 5 (nd - 1) ++ lsb_bits 4 (nc - 4) ++ cls ++ lens ++ bs ++ rest) out ->
  (length bs <= turns)%nat -> leads (fun q' F' _ s' => st q' F' s' rest r) q F (dynamic_block turns f s).
Proof.
  intros HKR Hnl Hnd Hnc HC H7 VC Hz HLB EL ED -> V0 V1 Hts HX HP S Ht. unfold dynamic_block.
  pose proof (proj2 (still_left K HK _ _ f Hf _ _ _ _ _ Hts HX HKR)) as HKo.
  eapply leads_reads; [apply (get_bits_lsb D K f Hf 5 (nl - 257)); [lia|change (2 ^ 5) with 32; lia]|exact S|more_bits|]. clear S s q F. intros q F s S.
  eapply leads_reads; [apply (get_bits_lsb D K f Hf 5 (nd - 1)); [lia|change (2 ^ 5) with 32; lia]|exact S|more_bits|]. clear S s q F. intros q F s S.
  eapply leads_reads; [apply (get_bits_lsb D K f Hf 4 (nc - 4)); [lia|change (2 ^ 4) with 16; lia]|exact S|more_bits|]. clear S s q F. intros q F s S.
  replace (nc - 4 + 4) with nc by lia. replace (nl - 257 + 257) with nl by lia. replace (nd - 1 + 1) with nd by lia.
  change s_length_dezigzag with length_order.
  eapply leads_reads; [apply (read_code_sizes_ok CL); exact H7|exact S|more_bits|]. clear S s q F. intros q F s S.
  rewrite code_sizes_eq by auto.
  destruct (build_table_any CL ltac:(apply VC) VC ltac:(lia)) as (h2 & T2 & E2).
  eapply leads_reads; [apply (reads_table _ _ E2)|exact S|more_bits|]. clear S s q F. intros q F s S.
  eapply leads_reads; [eapply (read_lengths_ok CL h2 _ (nl + nd) VC HC T2); [exact HLB|rewrite len_app; lia|lia|change (len []) with 0; lia]|exact S|more_bits|].
  clear S s q F. intros q F s S.
  rewrite len_app. replace (nl + nd =? len LL + len DL) with true by lia. cbn [negb].
  rewrite zdrop_app_exact, ztake_app_exact by lia.
  destruct (build_table_any DL ltac:(apply V1) V1 ltac:(lia)) as (h1 & T1 & E1).
  destruct (build_table_any LL ltac:(apply V0) V0 ltac:(lia)) as (h0 & T0 & E0).
  eapply leads_reads; [apply (reads_table _ _ E1)|exact S|more_bits|]. clear S s q F. intros q F s S.
  eapply leads_reads; [apply (reads_table _ _ E0)|exact S|more_bits|]. clear S s q F. intros q F s S.
  eapply (compressed_ok LL DL); eauto; lia.
Qed.

(** ** The block loop *)
Lemma block_prefix pos out b r : block_bits pos out b r -> prefix out r.
Proof. destruct 1; [apply prefix_app|eapply expands_prefix; eauto..]. Qed.
Lemma stream_prefix pos out b r : stream_bits pos out b r -> prefix out r.
Proof.
  induction 1; [eapply block_prefix; eauto|]. eapply prefix_trans; [eapply block_prefix; eauto|assumption].
Qed.
Definition one_block (turns : nat) (type : Z) : T unit :=
  if type =? 0 then stored_block turns f
  else if type =? 3 then tfail
  else if type =? 1 then fixed_block turns f
  else dynamic_block turns f.
(** a block of its type, and what reading it leads to *)
Lemma block_type turns b pos out r rest : K (len r - 259) <= len rest ->
  block_bits (pos + 1) out b r -> (pos + 1 + len b + len rest) mod 8 = 0 -> prefix r D -> (length b <= turns)%nat ->
  exists ty b', b = lsb_bits 2 ty ++ b' /\ 0 <= ty < 3 /\
    forall q F s, st q F s (b' ++ rest) out -> leads (fun q' F' _ s' => st q' F' s' rest r) q F (one_block turns ty s).
Proof.
  intros HKR HB Hpos HP Ht.
  destruct HB as [pad data Hp Hl8 H64 Hd|ts bs r Hts HX|nl nd nc CL lens cls LL DL ts bs r Hnl Hnd Hnc HC H7 VC Hz HLB EL ED Ecls V0 V1 Hts HX].
    - exists 0. eexists. split; [reflexivity|]. split; [lia|]. intros q0 F0 s0 S0. cbn [one_block Z.eqb].
      rewrite <- !app_assoc in S0. rewrite !len_app, bits_of_len, !lsb_len in Hpos.
      change (Z.of_nat 16) with 16 in Hpos. change (Z.of_nat 2) with 2 in Hpos.
      rewrite !app_length in Ht. rewrite bits_of_length in Ht.
      eapply stored_block_ok; eauto.
      + replace (pos + 1 + (2 + (len pad + (16 + (16 + 8 * len data)))) + len rest)
          with (len rest + (pos + 1 + 2 + len pad) + (4 + len data) * 8) in Hpos by lia.
        rewrite Z_mod_plus_full, Zplus_mod, Hp, Z.add_0_r, Z.mod_mod in Hpos by lia. exact Hpos.
      + unfold len. lia.
    - exists 1. eexists. split; [reflexivity|]. split; [lia|]. intros q0 F0 s0 S0. unfold one_block. cbn [Z.eqb Pos.eqb].
      eapply fixed_block_ok; eauto. rewrite app_length in Ht. lia.
    - exists 2. eexists. split; [reflexivity|]. split; [lia|]. intros q0 F0 s0 S0. unfold one_block. cbn [Z.eqb Pos.eqb].
      rewrite <- !app_assoc in S0. rewrite !app_length in Ht.
      eapply dynamic_block_ok; eauto. lia.
Qed.
Lemma type_bits (last : bool) ty b : 0 <= ty < 4 -> last :: lsb_bits 2 ty ++ b = lsb_bits 3 (b2z last + 2 * ty) ++ b.
Proof.
  intros Hty. change (lsb_bits 3 (b2z last + 2 * ty)) with (Z.odd (b2z last + 2 * ty) :: lsb_bits 2 ((b2z last + 2 * ty) / 2)).
  rewrite Z.odd_add_mul_2. rewrite (Z.mul_comm 2), Z.div_add by lia. destruct last; reflexivity.
Qed.
Lemma type_shift (last : bool) ty : 0 <= ty -> Z.shiftr (b2z last + 2 * ty) 1 = ty.
Proof. intros. rewrite Z.shiftr_div_pow2 by lia. change (2 ^ 1) with 2. rewrite (Z.mul_comm 2), Z.div_add by lia. destruct last; reflexivity. Qed.
Lemma type_last (last : bool) ty : (Z.land (b2z last + 2 * ty) 1 =? 0) = negb last.
Proof. rewrite land1_odd, Z.odd_add_mul_2. destruct last; reflexivity. Qed.
Lemma block_ok turns (last : bool) b pos out r rest q F s (g : T unit) Q : K (len r - 259) <= len rest ->
  block_bits (pos + 1) out b r -> (pos + 1 + len b + len rest) mod 8 = 0 ->
  st q F s ((last :: b) ++ rest) out -> prefix r D -> (length b <= turns)%nat ->
  (forall q' F' s', st q' F' s' rest r -> leads Q q' F' ((if negb last then g else tret tt) s')) ->
  leads Q q F (tbind (get_bits f 3) (fun x =>
    tbind (one_block turns (Z.shiftr x 1)) (fun _ => if Z.land x 1 =? 0 then g else tret tt)) s).
Proof.
  intros HKR HB Hpos S HP Ht HQ.
  destruct (block_type turns b pos out r rest HKR HB Hpos HP Ht) as (ty & b' & Eb & Hty & HO).
  subst b. cbn [app] in S. rewrite <- app_assoc, type_bits in S by lia.
  assert (K (len out) <= len (b' ++ rest)) as HKo.
  { eapply bits_stay; [exact HKR|]. apply block_slow in HB. rewrite len_app, lsb_len in HB. change (Z.of_nat 2) with 2 in HB. lia. } pose proof (b2z_range last) as BR.
  eapply leads_reads; [apply (get_bits_lsb D K f Hf 3 (b2z last + 2 * ty)); [lia|change (2 ^ 3) with 8; lia]|exact S|more_bits|]. clear S s q F. intros q F s S.
  rewrite type_shift by lia.
  eapply leads_bind; [apply HO; exact S|]. intros q' F' [] s' S'. cbv beta in S'.
  rewrite type_last. apply HQ. exact S'.
Qed.
Lemma blocks_unfold n turns : blocks (S n) turns f = tbind (get_bits f 3) (fun x =>
    tbind (one_block turns (Z.shiftr x 1)) (fun _ => if Z.land x 1 =? 0 then blocks n turns f else tret tt)).
Proof. reflexivity. Qed.
Theorem blocks_ok turns : forall pos out bits r, stream_bits pos out bits r ->
  forall n q F s more, K (len r - 259) <= len more -> st q F s (bits ++ more) out -> (pos + len (bits ++ more)) mod 8 = 0 -> prefix r D ->
  (length bits <= n)%nat -> (length bits <= turns)%nat ->
  leads (fun q' F' _ s' => st q' F' s' more r) q F (blocks n turns f s).
Proof.
  induction 1 as [pos out b r HB|pos out b out1 bs r HB HS IH]; intros n q F s more HKR S Hpos HP Hn Ht;
    (destruct n as [|n]; [cbn in Hn; lia|]); rewrite blocks_unfold.
  - eapply (block_ok turns true b pos out r more); eauto.
    + rewrite <- Hpos. f_equal. rewrite len_app, len_cons. lia.
    + cbn [length] in Ht. lia.
    + intros q' F' s' S'. constructor. exact S'.
  - rewrite <- app_assoc in S || idtac. cbn [length] in Ht, Hn. rewrite app_length in Ht, Hn.
    eapply (block_ok turns false b pos out out1 (bs ++ more)); eauto.
    + eapply bits_stay; [exact HKR|]. apply stream_slow in HS. lia.
    + rewrite <- Hpos. f_equal. rewrite !len_app, len_cons, len_app. lia.
    + cbn [app] in S |- *. now rewrite <- app_assoc in S.
    + eapply prefix_trans; [eapply stream_prefix; eauto|exact HP].
    + lia.
    + intros q' F' s' S'. cbn [negb]. apply IH; auto; try lia.
      rewrite <- Hpos. f_equal. rewrite !len_app, len_cons, len_app. lia.
Qed.
End Blocks.
