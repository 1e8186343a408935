(** npy_inflate refuses every faulty stream. *)
From Coq Require Import ZArith List Bool Lia.
From Verif Require Import Base BaseFacts Arr DeflateSpec DeflateFaults Tinfl BitFacts HuffFacts HuffBuild
  InflCopy InflBits InflRun InflBlocks InflTop InflFault InflFault2 InflFault3.
Import ListNotations.
Open Scope Z_scope.

Section Blocks.
Variable D : bytes.
Local Notation st := (InflBits.st D (fun _ => 0)).
Local Notation leads := (InflBits.leads D (fun _ => 0)).
Local Notation doomed := (doomed D).
Variable f : nat.
Hypothesis Hf : (2 <= f)%nat.
Lemma block_start_doomed {A} turns (last : bool) ty b out q s (g : Z -> unit -> T A) : 0 <= ty < 4 ->
  st q [] s (last :: lsb_bits 2 ty ++ b) out ->
  (forall q' s', st q' [] s' b out -> doomed q' (one_block f turns ty s')) ->
  doomed q (tbind (get_bits f 3) (fun x => tbind (one_block f turns (Z.shiftr x 1)) (g x)) s).
Proof.
  intros Hty S H. rewrite (type_bits f Hf) in S by lia. pose proof (b2z_range last) as BR.
  eapply reads_doomed; [apply (get_bits_lsb D (fun _ => 0) f Hf 3 (b2z last + 2 * ty)); [lia|change (2 ^ 3) with 8; lia]|exact S|]. clear S s q. intros q s S.
  rewrite (type_shift f Hf) by lia. apply doomed_bind. auto.
Qed.
Lemma align pos (pad b : list bool) : (pos + 1 + 2 + len pad) mod 8 = 0 -> (pos + 1 + (2 + (len pad + len b))) mod 8 = 0 -> len b mod 8 = 0.
Proof.
  intros H1 H2. replace (len b) with ((pos + 1 + (2 + (len pad + len b))) - (pos + 1 + 2 + len pad)) by lia.
  rewrite Zminus_mod, H1, H2. reflexivity.
Qed.
Lemma block_doomed {A} turns (last : bool) pos out b r q s (g : Z -> unit -> T A) : block_fault (pos + 1) out b r ->
  (pos + 1 + len b) mod 8 = 0 -> st q [] s (last :: b) out -> prefix r D -> len r < len D -> (length b < turns)%nat ->
  doomed q (tbind (get_bits f 3) (fun x => tbind (one_block f turns (Z.shiftr x 1)) (g x)) s).
Proof.
  intros HB Hpos S HP HD Ht.
  destruct HB as [b Hb|b|pad b Hp Hl8 Hb|pad n m b Hp Hl8 Hn Hm Hne|pad n data Hp Hl8 Hn Hd|ts bs b r Hts HX HC|b Hb|nl nd nc b Hnl Hnd Hnc Hb
    |nl nd nc CL h b HS HV|nl nd nc CL h bl l b HS HV HL Hl HF|nl nd nc CL h bl LL DL b HS HV HL EL ED HI
    |nl nd nc CL h bl LL DL ts bs b r HS HV HL EL ED V0 V1 Hts HX HC].
  - apply doomed_bind. eapply get_bits_doomed; eauto; [lia|]. rewrite len_cons. lia.
  - eapply (block_start_doomed turns last 3 b); eauto; [lia|]. intros q' s' S'. eapply doomed_fail; eassumption.
  - rewrite !len_app, lsb_len in Hpos. change (Z.of_nat 2) with 2 in Hpos.
    eapply (block_start_doomed turns last 0 (pad ++ b)); eauto; [lia|]. intros q' s' S'.
    eapply stored_cut_doomed; eauto. eapply align; eauto.
  - rewrite !len_app, lsb_len in Hpos. change (Z.of_nat 2) with 2 in Hpos.
    eapply (block_start_doomed turns last 0 _); eauto; [lia|]. intros q' s' S'.
    eapply (stored_lengths D f Hf turns pad n m b); eauto; [|lia].
    pose proof (align pos pad (lsb_bits 16 n ++ lsb_bits 16 m ++ b) Hp) as HA. rewrite !len_app, !lsb_len in HA. change (Z.of_nat 16) with 16 in HA.
    rewrite !lsb_len in Hpos. change (Z.of_nat 16) with 16 in Hpos. specialize (HA Hpos).
    replace (16 + (16 + len b)) with (len b + 4 * 8) in HA by lia. now rewrite Z_mod_plus_full in HA.
  - eapply (block_start_doomed turns last 0 _); eauto; [lia|]. intros q' s' S'.
    eapply stored_data_doomed; eauto. rewrite !app_length, bits_of_length in Ht. unfold len. lia.
  - eapply (block_start_doomed turns last 1 _); eauto; [lia|]. intros q' s' S'. rewrite !app_length in Ht.
    eapply fixed_cut; eauto. lia.
  - eapply (block_start_doomed turns last 2 _); eauto; [lia|]. intros q' s' S'. eapply counts_cut; eauto.
  - eapply (block_start_doomed turns last 2 _); eauto; [lia|]. intros q' s' S'.
    eapply (code_lengths_cut D f Hf turns nl nd nc b); eauto.
  - eapply (block_start_doomed turns last 2 _); eauto; [lia|]. intros q' s' S'. eapply code_length_code_doomed; eauto.
  - eapply (block_start_doomed turns last 2 _); eauto; [lia|]. intros q' s' S'. eapply (lengths_doomed D f Hf); eauto.
  - eapply (block_start_doomed turns last 2 _); eauto; [lia|]. intros q' s' S'. eapply codes_invalid_doomed; eauto.
  - eapply (block_start_doomed turns last 2 _); eauto; [lia|]. intros q' s' S'. rewrite !app_length in Ht. eapply dynamic_cut; eauto. lia.
Qed.
Lemma block_fault_prefix pos out b r : block_fault pos out b r -> prefix out r.
Proof. destruct 1; try apply prefix_refl; [apply prefix_app|eapply expands_prefix; eauto..]. Qed.
Lemma fault_prefix pos out b r : stream_fault pos out b r -> prefix out r.
Proof.
  induction 1 as [|pos out final b r HB|pos out b out1 bs r HB HS IH]; [apply prefix_refl|eapply block_fault_prefix; eauto|].
  eapply prefix_trans; [eapply (block_prefix _ out b); eauto|assumption].
Qed.
Theorem blocks_doomed turns : forall pos out bits r, stream_fault pos out bits r ->
  forall n q s, st q [] s bits out -> (pos + len bits) mod 8 = 0 -> prefix r D -> len r < len D ->
  (length bits < n)%nat -> (length bits < turns)%nat -> doomed q (blocks n turns f s).
Proof.
  induction 1 as [pos out|pos out last b r HB|pos out b out1 bs r HB HS IH]; intros n q s S Hpos HP HD Hn Ht;
    (destruct n as [|n]; [lia|]); rewrite (blocks_unfold f).
  - apply doomed_bind. eapply get_bits_doomed; eauto; [lia|]. rewrite len_nil. lia.
  - eapply (block_doomed turns last pos out b r); eauto.
    + rewrite len_cons in Hpos. rewrite <- Hpos. f_equal. lia.
    + cbn [length] in Ht. lia.
  - cbn [length] in Ht, Hn. rewrite app_length in Ht, Hn. rewrite len_cons, len_app in Hpos.
    destruct (block_type D (fun _ => 0) slow_0 f Hf turns b pos out out1 bs) as (ty & b' & -> & Hty & HO); auto.
    + apply len_nonneg.
    + rewrite <- Hpos. f_equal. lia.
    + eapply prefix_trans; [eapply fault_prefix; eauto|exact HP].
    + lia.
    + rewrite <- app_assoc, (type_bits f Hf) in S by lia. pose proof (b2z_range false) as BR.
      eapply reads_doomed; [apply (get_bits_lsb D (fun _ => 0) f Hf 3 (b2z false + 2 * ty)); [lia|change (2 ^ 3) with 8; lia]|exact S|]. clear S s q. intros q s S.
      rewrite (type_shift f Hf), type_last by lia. cbn [negb].
      eapply leads_doomed; [apply HO; exact S|]. intros q' [] s' S'. cbv beta in S'.
      apply IH; auto; try lia. rewrite <- Hpos. f_equal. lia.
Qed.
End Blocks.

(** ** At most 258 bytes out of each bit *)
Lemma so_far_growth LL DL ts bs : tokens_so_far LL DL ts bs -> forall out r, expands out ts r -> len r <= len out + 258 * len bs.
Proof.
  induction 1 as [|t b ts bs Ht Hts IH]; intros out r HX.
  - inversion HX. subst. rewrite len_nil. lia.
  - rewrite len_app. inversion Ht as [c Hc Hi|k lb lx le j db dx de Hk Hle Hi Hj Hde Hij]; subst.
    + inversion HX as [|? ? ? ? HX1|]; subst. apply IH in HX1. rewrite len_app in HX1. change (len [c]) with 1 in HX1.
      apply in_code_len in Hi. lia.
    + inversion HX as [| |? ? ? ? ? Hd HX1]; subst. apply IH in HX1. rewrite copy_snoc_len in HX1.
      pose proof (length_code_max _ _ _ _ Hk Hle). apply in_code_len in Hi. rewrite !len_app.
      pose proof (len_nonneg _ (lsb_bits (Z.to_nat lx) le)). pose proof (len_nonneg _ (codeword DL j)).
      pose proof (len_nonneg _ (lsb_bits (Z.to_nat dx) de)). lia.
Qed.
Lemma block_fault_growth pos out b r : block_fault pos out b r -> len r <= len out + 258 * len b.
Proof.
  destruct 1 as [b Hb|b|pad b Hp Hl8 Hb|pad n m b Hp Hl8 Hn Hm Hne|pad n data Hp Hl8 Hn Hd|ts bs b r Hts HX HC|b Hb|nl nd nc b Hnl Hnd Hnc Hb
    |nl nd nc CL h b HS HV|nl nd nc CL h bl l b HS HV HL Hl HF|nl nd nc CL h bl LL DL b HS HV HL EL ED HI
    |nl nd nc CL h bl LL DL ts bs b r HS HV HL EL ED V0 V1 Hts HX HC];
    try (match goal with |- len ?o <= len ?o + 258 * len ?x => pose proof (len_nonneg _ x); lia end).
  - rewrite !len_app, bits_of_len, !lsb_len. pose proof (len_nonneg _ pad). pose proof (len_nonneg _ data). lia.
  - apply (so_far_growth _ _ _ _ Hts) in HX. rewrite !len_app, lsb_len. pose proof (len_nonneg _ b). lia.
  - apply (so_far_growth _ _ _ _ Hts) in HX. rewrite !len_app, lsb_len. pose proof (len_nonneg _ b).
    pose proof (len_nonneg _ h). pose proof (len_nonneg _ bl). lia.
Qed.
Lemma fault_growth pos out b r : stream_fault pos out b r -> len r <= len out + 258 * len b.
Proof.
  induction 1 as [pos out|pos out last b r HB|pos out b out1 bs r HB HS IH].
  - rewrite len_nil. lia.
  - apply block_fault_growth in HB. rewrite len_cons. lia.
  - apply block_slow in HB. rewrite len_cons, len_app. pose proof (len_nonneg _ b). lia.
Qed.

(** ** The calls around it *)
Section Top.
Variable D : bytes.
Local Notation st := (InflBits.st D (fun _ => 0)).
Definition between (h : Z) (is : inflate_state) (input : bytes) : Prop :=
  is_ofs is = 0 /\ is_avail is = 0 /\ is_last is <> T_FAILED /\ 0 <= h /\ h mod 32768 = 0 /\
  doomed D h (is_go is (mk_tst input (is_bb is) (is_nb is) (is_dict is) 0)).
(** no input left, and more is needed *)
Definition starved (is : inflate_state) : Prop :=
  is_avail is = 0 /\ is_last is <> T_FAILED /\
  exists s k, is_go is (mk_tst [] (is_bb is) (is_nb is) (is_dict is) (is_ofs is)) = RNeed s k /\
    ti_cur s = is_ofs is /\ ti_in s = [].
Definition call_result (h : Z) (x : outcome (Z * bytes * bytes * inflate_state)) : Prop :=
  exists ret input1 o is1, x = Ok (ret, input1, o, is1) /\
    (ret = MZ_DATA_ERROR \/
     (ret = MZ_OK \/ ret = MZ_BUF_ERROR) /\
     (len o < CHUNK \/
      len o = CHUNK /\ h / 32768 <= Q D /\ ((exists h1, h / 32768 < h1 / 32768 /\ between h1 is1 input1) \/ (starved is1 /\ input1 = [])))).
Lemma loop_doomed : forall turns h0 h is had input written, (1 <= turns)%nat -> Q D < Z.of_nat turns + h / 32768 -> between h is input ->
  h0 / 32768 <= h / 32768 -> len written < CHUNK -> len written mod 32768 = 0 ->
  call_result h0 (inflate_loop turns is had input (CHUNK - len written) written).
Proof.
  induction turns as [|turns IH]; intros h0 h is had input written H1 Ht B Eq Hw Hm; [lia|].
  destruct B as (Ho & Ha & Hl & Hh & Hh0 & L).
  cbn [inflate_loop]. rewrite decompress_eq, Ho.
  inversion L as [? s bits out S E0 Er|? s k bits out S Hlo Hc L1 E0 Er|? s k bits out s2 k2 S Hi Ek Hc2 Hi2 E0 Er]; subst; cbn [obind].
  - destruct (window _ _ _ _ _ _ _ S Hh) as (Hcur & _ & _ & _ & _ & _ & HWr). rewrite Hh0 in *.
    rewrite (hand_out_ok _ _ (ti_cur s)) by (cbn [is_dict is_ofs is_avail]; (exact HWr || lia)).
    cbn [obind]. unfold handed_out. cbn [tstatus_eqb]. eexists _, _, _, _. split; [reflexivity|]. now left.
  - destruct (window _ _ _ _ _ _ _ S Hh) as (Hcur & El & _ & _ & _ & _ & HWr). rewrite Hh0, Hc in *.
    rewrite (hand_out_ok _ _ 32768) by (cbn [is_dict is_ofs is_avail]; (exact HWr || lia)). unfold handed_out. cbn [obind is_go is_bb is_nb is_dict is_ofs is_last is_avail].
    pose proof (Z.div_mod (len written) 32768 ltac:(lia)) as DM.
    assert (32768 <= CHUNK - len written) as Hroom by (unfold CHUNK in *; lia).
    change (32768 - 0) with 32768. rewrite !(Z.min_l 32768) by lia. rewrite dict_bytes_len.
    change (Z.of_nat (Z.to_nat 32768)) with 32768. change (32768 - 32768) with 0.
    change (Z.land (0 + 32768) (TINFL_LZ_DICT_SIZE - 1)) with 0. cbn [tstatus_eqb andb orb]. change (negb (0 =? 0)) with false.
    assert (between (h + 32768) (mk_inflate k (ti_bb s) (ti_nb s) (ti_dict s) 0 0 T_HAS_MORE_OUTPUT) (ti_in s)) as B1.
    { split; [reflexivity|]. split; [reflexivity|]. split; [discriminate|]. split; [lia|].
      split; [replace (h + 32768) with (h + 1 * 32768) by lia; rewrite Z_mod_plus_full; exact Hh0|].
      cbn [is_go is_bb is_nb is_dict]. replace (h + 32768) with (len out) by lia. exact L1. }
    assert ((h + 32768) / 32768 = h / 32768 + 1) as Hdiv by (replace (h + 32768) with (h + 1 * 32768) by lia; apply Z.div_add; lia).
    assert (h / 32768 + 1 <= Q D) as HQ by (rewrite <- Hdiv; unfold Q; apply Z.div_le_mono; lia).
    set (o := dict_bytes (Z.to_nat 32768) (ti_dict s) 0). assert (len o = 32768) as Hlen by (unfold o; now rewrite dict_bytes_len).
    destruct ((match ti_in s with [] => true | _ => false end || (CHUNK - len written - 32768 =? 0) || false)) eqn:Estop.
    + eexists _, _, _, _. split; [reflexivity|]. right. split; [now left|]. rewrite len_app, Hlen.
      destruct (Z.eq_dec (CHUNK - len written - 32768) 0) as [Ez|Ez]; [right|left; lia]. split; [lia|]. split; [lia|]. left.
      exists (h + 32768). split; [lia|exact B1].
    + apply orb_false_elim in Estop. destruct Estop as [Estop _]. apply orb_false_elim in Estop. destruct Estop as [_ Ez].
      apply Z.eqb_neq in Ez.
      replace (CHUNK - len written - 32768) with (CHUNK - len (written ++ o)) by (rewrite len_app; lia).
      apply (IH h0 (h + 32768)); auto; try (rewrite len_app; lia); try lia.
      rewrite len_app, Hlen. replace (len written + 32768) with (len written + 1 * 32768) by lia. rewrite Z_mod_plus_full. exact Hm.
  - destruct (window _ _ _ _ _ _ _ S Hh) as (Hcur & El & HlD & Hhl & _ & _ & HWr). rewrite Hh0 in *.
    assert (h / 32768 <= Q D) as HQ by (unfold Q; apply Z.div_le_mono; lia).
    rewrite Z.sub_0_r. rewrite (hand_out_ok _ _ (ti_cur s)) by (cbn [is_dict is_ofs is_avail]; (exact HWr || lia)).
    unfold handed_out. cbn [obind is_go is_bb is_nb is_dict is_ofs is_last is_avail].
    pose proof (Z.div_mod (len written) 32768 ltac:(lia)) as DM.
    assert (32768 <= CHUNK - len written) as Hroom by (unfold CHUNK in *; lia).
    rewrite !(Z.min_l (ti_cur s)) by lia. rewrite dict_bytes_len, Z2Nat.id, Z.sub_diag by lia. cbn [tstatus_eqb].
    rewrite Hi. cbn [orb]. rewrite orb_true_l || idtac.
    destruct (next_ofs h (ti_cur s)) as [N1 N2]; [rewrite Hh0; lia|exact Hh|]. rewrite Hh0, Z.sub_0_r in N1, N2.
    assert (starved (mk_inflate k (ti_bb s) (ti_nb s) (ti_dict s) (Z.land (0 + ti_cur s) (TINFL_LZ_DICT_SIZE - 1)) 0 T_NEEDS_MORE_INPUT)) as SV.
    { split; [reflexivity|]. split; [discriminate|]. cbn [is_go is_bb is_nb is_dict is_ofs]. rewrite N1, <- N2. exists s2, k2. auto. }
    set (o := dict_bytes (Z.to_nat (ti_cur s)) (ti_dict s) 0). assert (len o = ti_cur s) as Hlen by (unfold o; rewrite dict_bytes_len; lia).
    destruct had; cbn [negb andb]; (eexists _, _, _, _; split; [reflexivity|]; right; split; [auto|]);
      rewrite len_app, Hlen; (destruct (Z.eq_dec (len written + ti_cur s) CHUNK); [right; split; [assumption|split; [lia|auto]]|left; lia]).
Qed.
Lemma call_starved turns is : starved is -> (1 <= turns)%nat ->
  exists i is1, mz_inflate turns is [] CHUNK = Ok (MZ_BUF_ERROR, i, [], is1).
Proof.
  intros (Ha & Hl & s & k & E & Hc & Hi) Ht. unfold mz_inflate. rewrite (not_failed _ Hl), Ha. cbn [Z.eqb negb].
  destruct turns as [|turns]; [lia|]. cbn [inflate_loop]. rewrite decompress_eq, E. cbn [obind].
  rewrite Hc, Z.sub_diag. rewrite hand_out_none by (cbn [is_avail]; unfold CHUNK; lia). unfold handed_out. cbn [obind is_go is_bb is_nb is_dict is_ofs is_last is_avail].
  change (Z.min 0 CHUNK) with 0. cbn [Z.to_nat dict_bytes tstatus_eqb andb negb app]. eexists _, _. reflexivity.
Qed.
Lemma chunk_doomed : forall turns loops h is input output, Q D + 2 < Z.of_nat turns + h / 32768 -> (1 <= turns)%nat ->
  Q D < Z.of_nat loops -> between h is input ->
  inflate_chunk turns loops is input output = Throw RuntimeError \/
  exists ret out is1, inflate_chunk turns loops is input output = Ok (ret, out, is1) /\ ret <> MZ_STREAM_END.
Proof.
  induction turns as [|turns IH]; intros loops h is input output Ht H1 Hl B; [lia|].
  assert (0 <= Q D) as HQ0 by (apply Z.div_pos; [apply len_nonneg|lia]).
  assert (0 <= h / 32768) as Hh0 by (apply Z.div_pos; [apply B|lia]).
  cbn [inflate_chunk].
  assert (call_result h (mz_inflate loops is input CHUNK)) as (ret & input1 & o & is1 & E & C).
  { unfold mz_inflate. pose proof B as (Ho & Ha & Hlast & HB). rewrite (not_failed _ Hlast), Ha. cbn [Z.eqb negb].
    change CHUNK with (CHUNK - len (@nil Z)). eapply (loop_doomed loops h h); try lia; auto. rewrite len_nil. unfold CHUNK. lia. }
  rewrite E. cbn [obind]. destruct C as [-> |(Hret & C)]; [left; reflexivity|].
  replace (ret =? MZ_DATA_ERROR) with false by (destruct Hret as [-> | ->]; reflexivity).
  destruct C as [C|(C & HQ & C2)].
  - replace (CHUNK - len o =? 0) with false by lia. right. eexists _, _, _. split; [reflexivity|]. destruct Hret as [-> | ->]; discriminate.
  - rewrite C, Z.sub_diag. cbn [Z.eqb]. destruct C2 as [(h1 & Hh1 & B1)|(SV & ->)].
    + apply (IH loops h1); auto; lia.
    + destruct turns as [|turns]; [lia|]. cbn [inflate_chunk].
      destruct (call_starved loops is1 SV) as (i & is2 & E2); [lia|]. rewrite E2. cbn [obind].
      change (MZ_BUF_ERROR =? MZ_DATA_ERROR) with false. change (CHUNK - len (@nil Z) =? 0) with false. cbv iota.
      right. eexists _, _, _. split; [reflexivity|]. discriminate.
Qed.
End Top.

(** npy_inflate on a faulty stream that fits in one chunk *)
Theorem npy_inflate_faulty z : bytes_ok z -> faulty z -> len z <= CHUNK -> npy_inflate z = Throw RuntimeError.
Proof.
  intros Hz (r & HS) Hlen. destruct z as [|x0 z0] eqn:Ez; [reflexivity|]. rewrite <- Ez in *.
  assert (1 <= len z) as Hz1 by (rewrite Ez, len_cons; pose proof (len_nonneg _ z0); lia).
  pose proof (fault_growth _ _ _ _ HS) as HG. rewrite len_nil, bits_of_len in HG.
  set (D := r ++ [0]). assert (len D = len r + 1) as HD by (unfold D; rewrite len_app; reflexivity).
  set (fuel := inflate_fuel z). assert (Z.of_nat fuel = 8 * len z + 16) as Ef by (unfold fuel, inflate_fuel, len; lia).
  assert (Q D <= 8 * len z) as HQ by (unfold Q; apply Z.div_le_upper_bound; lia).
  assert (0 <= Q D) as HQ0 by (apply Z.div_pos; [apply len_nonneg|lia]).
  assert (between D 0 (new_inflate fuel) z) as B.
  { split; [reflexivity|]. split; [reflexivity|]. split; [discriminate|]. split; [lia|]. split; [reflexivity|].
    unfold new_inflate. cbn [is_go is_bb is_nb is_dict is_ofs].
    apply (blocks_doomed D fuel ltac:(lia) fuel 0 [] (bits_of z) r HS fuel 0).
    - split; [|split; [split; [|split]|split; [|split]]].
      + split; [cbn; lia|]. split; [cbn; lia|]. exact Hz.
      + constructor.
      + unfold ahead. cbn [ti_nb ti_bb ti_in Z.to_nat lsb_bits app]. now rewrite app_nil_r.
      + apply len_nonneg.
      + split; [cbn; lia|]. split; [cbn; lia|]. intros i Hi. rewrite len_nil in Hi. lia.
      + exists D. reflexivity.
      + rewrite len_nil. lia.
    - rewrite Z.add_0_l, bits_of_len, Z.mul_comm. apply Z_mod_mult.
    - apply prefix_app.
    - lia.
    - pose proof (bits_of_len z) as HB. unfold len in *. lia.
    - pose proof (bits_of_len z) as HB. unfold len in *. lia. }
  unfold npy_inflate, npy_inflate_upto. fold fuel.
  assert (exists fuel', fuel = S fuel') as (fuel' & Ef') by (destruct fuel; [lia|eauto]).
  assert (forall loops, inflate_chunks fuel loops (new_inflate fuel) MZ_OK z [] =
    let* x := inflate_chunk loops loops (new_inflate fuel) (ztake CHUNK z) [] in
          let '(ret1, output1, st1) := x in
          if ret1 =? MZ_STREAM_END then Ok output1
          else inflate_chunks fuel' loops st1 ret1 (zdrop CHUNK z) output1) as Estep.
  { intros loops. rewrite Ef' at 1. rewrite Ez. reflexivity. }
  rewrite Estep, ztake_all, zdrop_all by lia.
  destruct (chunk_doomed D fuel fuel 0 (new_inflate fuel) z [] ltac:(change (0 / 32768) with 0; lia) ltac:(lia) ltac:(lia) B) as [-> |(ret & out & is1 & -> & Hret)]; [reflexivity|].
  cbn [obind]. apply Z.eqb_neq in Hret. rewrite Hret. destruct fuel'; cbn [inflate_chunks]; now rewrite Hret.
Qed.
