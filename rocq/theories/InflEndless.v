(** A stream whose decompression never ends. *)
From Coq Require Import ZArith List Bool Lia.
From Verif Require Import Base BaseFacts Arr DeflateSpec Tinfl BitFacts InflCopy InflBits InflTop.
Import ListNotations.
Open Scope Z_scope.
Local Open Scope tinfl_scope.

(** A dynamic block without a single literal/length code, and some more bytes. *)
Definition no_codes : bytes := [5; 0; 128; 192; 95; 27; 0; 0; 0; 0; 0; 0; 0; 0; 0; 0].
Definition empty_table : huff := mk_huff arr_empty arr_empty.
(** never done: out of fuel, or a full window with input left *)
Inductive endless {A} : res A -> Prop :=
| en_fuel : endless (RUndef OutOfFuel)
| en_more s k : ti_cur s = 32768 -> ti_in s <> [] -> written (ti_dict s) 0 32768 ->
    endless (k (mk_tst (ti_in s) (ti_bb s) (ti_nb s) (ti_dict s) 0)) -> endless (RMore s k).
Lemma endless_bind {A B} (r : res A) (g : A -> T B) : endless r -> endless (res_bind r g).
Proof. induction 1; cbn [res_bind]; [constructor|]. apply en_more; auto. Qed.
(** enough input to fill the bit buffer and have some left *)
Definition fed (s : tst) : Prop := 0 <= ti_nb s < 62 /\ 80 <= 8 * len (ti_in s) + ti_nb s /\ 0 <= ti_cur s <= 32768 /\ written (ti_dict s) 0 (ti_cur s).
Lemma look_empty bb : look_at empty_table bb = 0.
Proof. unfold look_at. cbn [empty_table hf_look]. apply arr_get_empty. Qed.
Lemma drop_none s : 0 <= ti_nb s -> drop_bits 0 s = RDone tt (set_bits s (Z.shiftr (ti_bb s) 0) (ti_nb s - 0)).
Proof. intros H. unfold drop_bits. now replace ((0 <=? 0) && (0 <? 64) && (0 <=? ti_nb s)) with true by lia. Qed.
Lemma add_room c w s : 0 <= ti_nb s < 64 ->
  add_bits c w s = RDone tt (set_bits s (Z.lor (ti_bb s) (u64 (Z.shiftl c (ti_nb s)))) (ti_nb s + w)).
Proof. intros H. unfold add_bits. now replace ((0 <=? ti_nb s) && (ti_nb s <? 64)) with true by lia. Qed.
Lemma store_fed s c : fed s -> ti_cur s < 32768 -> exists s', store c s = RDone tt s' /\ fed s' /\ ti_cur s' = ti_cur s + 1.
Proof.
  intros (N & L & C & W) H. rewrite store_room by lia. eexists. split; [reflexivity|]. split; [|reflexivity].
  unfold fed. cbn [set_out ti_nb ti_in ti_cur ti_dict]. split; [lia|]. split; [lia|]. split; [lia|]. apply written_push; [lia|lia|exact W].
Qed.
Lemma decode_empty f s : fed s -> exists s', huff_decode f empty_table s = RDone 0 s' /\ fed s' /\ ti_cur s' = ti_cur s.
Proof.
  intros (N & L & C). unfold huff_decode, tbind at 1. cbn [num_bits res_bind].
  assert (forall s1, fed s1 -> exists s', (bb <- bit_buf ;;
    e <- tlift (huff_entry empty_table bb) ;;
    drop_bits (snd e) ;;;
    tret (if look_at empty_table bb >=? 0 then Z.land (fst e) 511 else fst e)) s1 = RDone 0 s' /\ fed s' /\ ti_cur s' = ti_cur s1) as HT.
  { intros s1 (N1 & L1 & D1). unfold tbind at 1. cbn [bit_buf res_bind].
    unfold huff_entry. rewrite look_empty. cbn [Z.geb Z.compare]. cbv iota. unfold tbind, tlift. cbn [res_bind fst snd]. change (Z.shiftr 0 9) with 0.
    rewrite drop_none by lia. cbn [res_bind].
    eexists. split; [reflexivity|]. split; [|reflexivity]. unfold fed. cbn [set_bits ti_nb ti_in ti_cur ti_dict]. split; [lia|]. split; [lia|]. exact D1. }
  unfold tbind at 1. destruct (ti_nb s <? 15) eqn:E.
  - destruct (ti_in s) as [|a [|b t]] eqn:Ei; rewrite ?len_cons, ?len_nil in L; try lia.
    match goal with |- exists s', res_bind (?m ?x) ?g = _ /\ _ =>
      assert (m x = RDone tt (set_bits (set_bits x (Z.lor (ti_bb x) (u64 (Z.shiftl a (ti_nb x)))) (ti_nb x + 8))
        (Z.lor (Z.lor (ti_bb x) (u64 (Z.shiftl a (ti_nb x)))) (u64 (Z.shiftl b (ti_nb x + 8)))) (ti_nb x + 8 + 8))) as -> end.
    { unfold tbind. rewrite add_room by (cbn [set_in ti_nb]; lia). cbn [res_bind]. rewrite add_room by (cbn [set_in set_bits ti_nb]; lia). reflexivity. }
    cbn [res_bind].
    match goal with |- exists s', _ ?x = _ /\ _ => destruct (HT x) as (s' & E1 & F1 & C1) end.
    + unfold fed. cbn [set_in set_bits ti_nb ti_in ti_cur ti_dict]. split; [lia|]. split; [lia|]. exact C.
    + exists s'. split; [cbn [res_bind]; exact E1|]. split; [exact F1|]. rewrite C1. reflexivity.
  - cbn [tret res_bind]. apply HT. split; [lia|split; [lia|exact C]].
Qed.
Lemma entry_empty s : fed s -> exists s', fast_entry empty_table s = RDone 0 s' /\ fed s' /\ ti_cur s' = ti_cur s.
Proof.
  intros (N & L & C). unfold fast_entry, tbind at 1. cbn [bit_buf res_bind].
  unfold huff_entry. rewrite look_empty. cbn [Z.geb Z.compare]. cbv iota. unfold tbind, tlift. cbn [res_bind fst snd]. change (Z.shiftr 0 9) with 0.
    rewrite drop_none by lia. cbn [res_bind].
  eexists. split; [reflexivity|]. split; [|reflexivity]. unfold fed. cbn [set_bits ti_nb ti_in ti_cur ti_dict]. split; [lia|]. split; [lia|]. exact C.
Qed.
Lemma put_endless {A} f c (g : unit -> T A) : (forall s, fed s -> endless (g tt s)) ->
  forall s, fed s -> endless (tbind (put_byte f c) g s).
Proof.
  intros Hg s F. unfold put_byte, tbind. revert s F. induction f as [|f IH]; intros s F; pose proof F as (N & L & C & W); cbn [wait_room];
    change TINFL_LZ_DICT_SIZE with 32768; destruct (ti_cur s >=? 32768) eqn:E; cbn [res_bind].
  - constructor.
  - destruct (store_fed s c F ltac:(lia)) as (s' & -> & F' & _). cbn [res_bind]. auto.
  - assert (ti_cur s = 32768) as EC by lia. rewrite EC in W. apply en_more; [lia|destruct (ti_in s); [rewrite len_nil in L; lia|discriminate]|exact W|].
    apply IH. unfold fed. cbn [ti_nb ti_in ti_cur ti_dict]. split; [lia|]. split; [lia|]. split; [lia|]. now apply written_none.
  - destruct (store_fed s c F ltac:(lia)) as (s' & -> & F' & _). cbn [res_bind]. auto.
Qed.
Lemma codes_endless f h1 : forall turns s, fed s -> endless (codes turns f empty_table h1 s).
Proof.
  induction turns as [|turns IH]; intros s F; cbn [codes]; [constructor|].
  destruct (_ || _) eqn:E.
  - destruct (decode_empty f s F) as (s1 & E1 & F1 & _). unfold tbind at 1. rewrite E1. cbn [res_bind].
    cbn [Z.geb Z.compare]. apply put_endless; auto.
  - apply orb_false_iff in E as [E1 E2]. change TINFL_LZ_DICT_SIZE with 32768 in E2. pose proof F as (N & L & C).
    unfold tbind at 1. cbn [num_bits res_bind].
    assert (exists s1, (if ti_nb s <? 30 then take_word else tret tt) s = RDone tt s1 /\ fed s1 /\ ti_cur s1 = ti_cur s) as (s1 & Et & F1 & C1).
    { destruct (ti_nb s <? 30) eqn:E3; [|exists s; auto]. unfold take_word.
      destruct (ti_in s) as [|a [|b [|c [|d t]]]] eqn:Ei; rewrite ?len_cons, ?len_nil in E1, L; try lia.
      rewrite add_room by (cbn [set_in ti_nb]; lia). eexists. split; [reflexivity|]. split; [|reflexivity]. unfold fed. cbn [set_bits set_in ti_nb ti_in ti_cur ti_dict].
      split; [lia|]. split; [lia|]. exact C. }
    unfold tbind at 1. rewrite Et. cbn [res_bind].
    destruct (entry_empty s1 F1) as (s2 & E3 & F2 & C2). unfold tbind at 1. rewrite E3. cbn [res_bind].
    change (negb (Z.land 0 256 =? 0)) with false. cbv iota.
    destruct (entry_empty s2 F2) as (s3 & E4 & F3 & C3). unfold tbind at 1. rewrite E4. cbn [res_bind].
    destruct (store_fed s3 (u8 0) F3 ltac:(lia)) as (s4 & E5 & F4 & C4). unfold tbind at 1. rewrite E5. cbn [res_bind].
    change (negb (Z.land 0 256 =? 0)) with false. cbv iota.
    destruct (store_fed s4 (u8 0) F4 ltac:(lia)) as (s5 & E6 & F5 & C5). unfold tbind at 1. rewrite E6. cbn [res_bind]. auto.
Qed.
(** the header, whatever the other bounds *)
Lemma no_codes_header n (C : huff -> huff -> T unit) :
  (a <- get_bits (S n) 5 ;;
   b <- get_bits (S n) 5 ;;
   c <- get_bits (S n) 4 ;;
   let n0 := a + 257 in
   let n1 := b + 1 in
   cl <- read_code_sizes (S n) (ztake (c + 4) s_length_dezigzag) (repeat 0 19) ;;
   h2 <- build_table cl ;;
   l <- read_lengths 320 (S n) h2 (n0 + n1) [] ;;
   if negb (n0 + n1 =? len l) then tfail
   else
     h1 <- build_table (zdrop n0 l) ;;
     h0 <- build_table (ztake n0 l) ;;
     C h0 h1) (mk_tst (tl no_codes) 0 5 arr_empty 0)
  = C empty_table empty_table (mk_tst (repeat 0 8) 0 19 arr_empty 0).
Proof. vm_compute. reflexivity. Qed.
Lemma no_codes_endless n : endless (blocks n n n (mk_tst no_codes 0 0 arr_empty 0)).
Proof.
  destruct n as [|n]; [constructor|]. cbn [blocks]. unfold tbind at 1.
  assert (get_bits (S n) 3 (mk_tst no_codes 0 0 arr_empty 0) = RDone 5 (mk_tst (tl no_codes) 0 5 arr_empty 0)) as -> by (vm_compute; reflexivity).
  cbn [res_bind]. change (Z.shiftr 5 1) with 2. cbn [Z.eqb Pos.eqb]. cbv iota. apply endless_bind.
  unfold dynamic_block. rewrite no_codes_header. apply codes_endless.
  split; [cbn [ti_nb]; lia|]. split; [cbn; lia|]. split; [cbn; lia|]. now apply written_none.
Qed.
(** ** The calls around it *)
Definition on_and_on (is : inflate_state) (input : bytes) : Prop :=
  is_ofs is = 0 /\ is_avail is = 0 /\ is_last is <> T_FAILED /\ endless (is_go is (mk_tst input (is_bb is) (is_nb is) (is_dict is) 0)).
Lemma loop_endless : forall turns is had input written, on_and_on is input -> len written < CHUNK -> len written mod 32768 = 0 ->
  inflate_loop turns is had input (CHUNK - len written) written = Undef OutOfFuel \/
  exists input1 o is1, inflate_loop turns is had input (CHUNK - len written) written = Ok (MZ_OK, input1, o, is1) /\
    len o = CHUNK /\ on_and_on is1 input1.
Proof.
  induction turns as [|turns IH]; intros is had input written B Hw Hm; [now left|].
  destruct B as (Ho & Ha & Hl & L). cbn [inflate_loop]. rewrite decompress_eq, Ho.
  inversion L as [E|s k Hc Hi HWr L1 E]; cbn [obind]; [now left|].
  rewrite (hand_out_ok _ _ 32768) by (cbn [is_dict is_ofs is_avail]; (exact HWr || lia)).
  unfold handed_out. cbn [obind is_go is_bb is_nb is_dict is_ofs is_last is_avail]. rewrite Hc.
  pose proof (Z.div_mod (len written) 32768 ltac:(lia)) as DM.
  assert (32768 <= CHUNK - len written) as Hroom by (unfold CHUNK in *; lia).
  change (32768 - 0) with 32768. rewrite !(Z.min_l 32768) by lia. rewrite dict_bytes_len.
  change (Z.of_nat (Z.to_nat 32768)) with 32768. change (32768 - 32768) with 0.
  change (Z.land (0 + 32768) (TINFL_LZ_DICT_SIZE - 1)) with 0. cbn [tstatus_eqb andb orb]. change (negb (0 =? 0)) with false.
  assert (on_and_on (mk_inflate k (ti_bb s) (ti_nb s) (ti_dict s) 0 0 T_HAS_MORE_OUTPUT) (ti_in s)) as B1.
  { split; [reflexivity|]. split; [reflexivity|]. split; [discriminate|]. exact L1. }
  set (o := dict_bytes (Z.to_nat 32768) (ti_dict s) 0). assert (len o = 32768) as Hlen by (unfold o; now rewrite dict_bytes_len).
  destruct (ti_in s) as [|x t] eqn:Ei; [congruence|]. cbn [orb]. rewrite orb_false_r.
  destruct (CHUNK - len written - 32768 =? 0) eqn:Estop.
  - right. eexists _, _, _. split; [reflexivity|]. rewrite len_app, Hlen. split; [lia|exact B1].
  - apply Z.eqb_neq in Estop.
    replace (CHUNK - len written - 32768) with (CHUNK - len (written ++ o)) by (rewrite len_app; lia).
    apply IH; [exact B1|rewrite len_app; lia|].
    rewrite len_app, Hlen. replace (len written + 32768) with (len written + 1 * 32768) by lia. rewrite Z_mod_plus_full. exact Hm.
Qed.
Lemma chunk_endless : forall turns loops is input output, on_and_on is input ->
  inflate_chunk turns loops is input output = Undef OutOfFuel.
Proof.
  induction turns as [|turns IH]; intros loops is input output B; cbn [inflate_chunk]; [reflexivity|].
  pose proof B as (Ho & Ha & Hl & _).
  assert (mz_inflate loops is input CHUNK = Undef OutOfFuel \/
    exists input1 o is1, mz_inflate loops is input CHUNK = Ok (MZ_OK, input1, o, is1) /\ len o = CHUNK /\ on_and_on is1 input1) as H.
  { unfold mz_inflate. rewrite (not_failed _ Hl), Ha. cbn [Z.eqb negb]. change CHUNK with (CHUNK - len (@nil Z)) at 1 2.
    apply loop_endless; [exact B|rewrite len_nil; unfold CHUNK; lia|reflexivity]. }
  destruct H as [->|(input1 & o & is1 & -> & Hlo & B1)]; cbn [obind]; [reflexivity|].
  change (MZ_OK =? MZ_DATA_ERROR) with false. rewrite Hlo, Z.sub_diag. cbn [Z.eqb]. now apply IH.
Qed.
Theorem no_codes_never_ends fuel : npy_inflate_upto fuel no_codes = Undef OutOfFuel.
Proof.
  unfold npy_inflate_upto. destruct fuel as [|n]; [reflexivity|].
  assert (inflate_chunks (S n) (S n) (new_inflate (S n)) MZ_OK no_codes [] =
    let* x := inflate_chunk (S n) (S n) (new_inflate (S n)) (ztake CHUNK no_codes) [] in
          let '(ret1, output1, st1) := x in
          if ret1 =? MZ_STREAM_END then Ok output1
          else inflate_chunks n (S n) st1 ret1 (zdrop CHUNK no_codes) output1) as -> by reflexivity.
  rewrite ztake_all by (vm_compute; congruence). rewrite chunk_endless; [reflexivity|].
  split; [reflexivity|]. split; [reflexivity|]. split; [discriminate|]. apply (no_codes_endless (S n)).
Qed.
