(** Blocks that cannot be read. *)
From Coq Require Import ZArith List Bool Lia.
From Verif Require Import Base BaseFacts Arr DeflateSpec DeflateFaults Tinfl BitFacts HuffFacts HuffBuild
  InflCopy InflBits InflRun InflBlocks InflFault.
Import ListNotations.
Open Scope Z_scope.

Lemma take_bits (n : Z) (b : list bool) : 0 <= n <= len b ->
  exists v b', b = lsb_bits (Z.to_nat n) v ++ b' /\ 0 <= v < 2 ^ n /\ len b' = len b - n.
Proof.
  intros Hn. rewrite <- (ztake_zdrop _ n b). set (w := ztake n b).
  assert (len w = n) as Hw by (unfold w; rewrite len_ztake; lia).
  destruct (bits_lsb w n Hw) as [E R]. exists (bval w), (zdrop n b). rewrite <- E. split; [reflexivity|].
  split; [exact R|]. rewrite len_app, Hw, len_zdrop. lia.
Qed.

Section Blocks.
Variable D : bytes.
Local Notation st := (InflBits.st D (fun _ => 0)).
Local Notation leads := (InflBits.leads D (fun _ => 0)).
Local Notation doomed := (doomed D).
Variable f : nat.
Hypothesis Hf : (2 <= f)%nat.

(** ** Stored blocks *)
Lemma raw_byte_doomed q s bits out : st q [] s bits out -> len bits < 8 -> doomed q (raw_byte f s).
Proof.
  intros S Hl. unfold raw_byte, tbind at 1. cbn [num_bits res_bind].
  destruct (ti_nb s =? 0) eqn:E; [|eapply get_bits_doomed; eauto; lia].
  apply Z.eqb_eq in E. pose proof (no_input _ _ _ _ _ S) as HN. pose proof (len_nonneg _ (ti_in s)).
  eapply get_byte_doomed; eauto. apply len_0_nil. lia.
Qed.
Lemma raw_byte_step {A} (g : Z -> T A) q s b out : st q [] s b out ->
  (8 <= len b -> forall v b', b = lsb_bits 8 v ++ b' -> is_byte v -> forall q' s', st q' [] s' b' out -> doomed q' (g v s')) ->
  doomed q (tbind (raw_byte f) g s).
Proof.
  intros S H. destruct (Z_lt_ge_dec (len b) 8) as [Hl|Hl].
  - apply doomed_bind. eapply raw_byte_doomed; eauto.
  - destruct (take_bits 8 b ltac:(lia)) as (v & b' & E & Hv & _). change (Z.to_nat 8) with 8%nat in E. subst b.
    eapply reads_doomed; [apply (raw_byte_ok D (fun _ => 0) f Hf v); exact Hv|exact S|]. intros q' s' S'. eapply H; eauto; lia.
Qed.
Lemma pad_doomed {A} (g : Z -> T A) pad b q s out : len pad < 8 -> len b mod 8 = 0 -> st q [] s (pad ++ b) out ->
  (forall q' s', st q' [] s' b out -> doomed q' (g (bval pad) s')) ->
  doomed q (tbind num_bits (fun nb => tbind (get_bits f (Z.land nb 7)) g) s).
Proof.
  intros Hpad Hb S H. unfold tbind at 1. cbn [num_bits res_bind]. pose proof (len_nonneg _ pad) as Hp0.
  assert (Z.land (ti_nb s) 7 = len pad) as ->.
  { change 7 with (Z.ones 3). rewrite Z.land_ones by lia. change (2 ^ 3) with 8.
    destruct S as (W & (_ & Ea & _) & _). rewrite <- (ahead_mod []) by assumption. rewrite Ea.
    rewrite len_app, Zplus_mod, Hb, Z.add_0_r, Z.mod_mod by lia. apply Z.mod_small. lia. }
  eapply reads_doomed; [apply (get_bits_ok D (fun _ => 0) f Hf (len pad) pad); [reflexivity|lia]|exact S|]. auto.
Qed.
Lemma stored_cut_doomed turns pad b q s out : len pad < 8 -> len b mod 8 = 0 -> len b < 32 -> st q [] s (pad ++ b) out ->
  doomed q (stored_block turns f s).
Proof.
  intros Hpad Hm Hl S. unfold stored_block. eapply pad_doomed; eauto. clear S s q. intros q s S.
  eapply raw_byte_step; [exact S|]. intros H1 v1 b1 -> _. clear S s q. intros q s S. rewrite len_app, lsb_len in Hl.
  eapply raw_byte_step; [exact S|]. intros H2 v2 b2 -> _. clear S s q. intros q s S. rewrite len_app, lsb_len in Hl.
  eapply raw_byte_step; [exact S|]. intros H3 v3 b3 -> _. clear S s q. intros q s S. rewrite len_app, lsb_len in Hl.
  eapply raw_byte_step; [exact S|]. intros H4. lia.
Qed.
Lemma byte_parts v : 0 <= v < 65536 -> is_byte (v mod 256) /\ is_byte (v / 256).
Proof.
  intros Hv. split; [apply Z.mod_pos_bound; lia|]. split; [apply Z.div_pos; lia|]. apply Z.div_lt_upper_bound; lia.
Qed.
(** the four length bytes *)
Lemma stored_lengths turns pad n m b q s out : len pad < 8 -> len b mod 8 = 0 -> 0 <= n < 65536 -> 0 <= m < 65536 ->
  st q [] s (pad ++ lsb_bits 16 n ++ lsb_bits 16 m ++ b) out ->
  (m = 65535 - n -> forall q' s', st q' [] s' b out ->
     doomed q' (tbind (stored_bits turns f n) (fun c => stored_bytes turns f c) s')) ->
  doomed q (stored_block turns f s).
Proof.
  intros Hpad Hmod Hn Hm S H. unfold stored_block. eapply (pad_doomed _ pad (lsb_bits 16 n ++ lsb_bits 16 m ++ b)); eauto.
  { rewrite !len_app, !lsb_len. change (Z.of_nat 16) with 16. replace (16 + (16 + len b)) with (len b + 4 * 8) by lia. rewrite Z_mod_plus_full. exact Hmod. }
  clear S s q. intros q s S.
  rewrite (lsb16 n), (lsb16 m), <- !app_assoc in S.
  eapply reads_doomed; [apply (raw_byte_ok D (fun _ => 0) f Hf (n mod 256)); apply byte_parts; lia|exact S|]. clear S s q. intros q s S.
  eapply reads_doomed; [apply (raw_byte_ok D (fun _ => 0) f Hf (n / 256)); apply byte_parts; lia|exact S|]. clear S s q. intros q s S.
  eapply reads_doomed; [apply (raw_byte_ok D (fun _ => 0) f Hf (m mod 256)); apply byte_parts; lia|exact S|]. clear S s q. intros q s S.
  eapply reads_doomed; [apply (raw_byte_ok D (fun _ => 0) f Hf (m / 256)); apply byte_parts; lia|exact S|]. clear S s q. intros q s S.
  cbv zeta. rewrite !(word16 f Hf) by lia. rewrite (lxor_ffff f Hf) by lia.
  destruct (n =? 65535 - m) eqn:E; cbn [negb]; [|eapply doomed_fail; eassumption]. apply H; [lia|exact S].
Qed.

Lemma leads_bind0 {A B} P Q (m : T A) (g : A -> T B) q s : leads P q [] (m s) ->
  (forall q' a s', P q' [] a s' -> leads Q q' [] (g a s')) -> leads Q q [] (tbind m g s).
Proof.
  intros H Hg. unfold tbind. remember [] as F eqn:EF. revert EF.
  induction H as [q F a s' HP|q F s' k bits out S Hl Hc H IH|q F s' k bits out S Hi HF H IH]; intros EF; subst F; cbn [res_bind].
  - now apply Hg.
  - eapply leads_more; eauto. intros F1 F2 E. symmetry in E. apply app_eq_nil in E. destruct E as [-> ->].
    apply IH; auto.
  - congruence.
Qed.

Lemma stored_bits_short : forall data turns n q s out, bytes_ok data -> len data < n ->
  st q [] s (bits_of data) out -> prefix (out ++ data) D -> len data < Z.of_nat turns ->
  leads (fun q' F' c' s' => exists d1 d2, data = d1 ++ d2 /\ c' = n - len d1 /\ st q' F' s' (bits_of d2) (out ++ d1)
             /\ ti_nb s' = 0) q [] (stored_bits turns f n s).
Proof.
  induction data as [|x data IH]; intros turns n q s out Hd Hn S HP Ht;
    (destruct turns as [|turns]; [match type of Ht with len ?l < _ => pose proof (len_nonneg _ l) end; lia|]);
    cbn [stored_bits]; unfold tbind at 1; cbn [num_bits res_bind].
  - rewrite len_nil in Hn. pose proof (no_input _ _ _ _ _ S) as HN. cbn [bits_of flat_map] in HN. rewrite len_nil in HN. pose proof (len_nonneg _ (ti_in s)). assert (0 <= ti_nb s) by apply S.
    replace (ti_nb s =? 0) with true by lia. rewrite orb_true_r. constructor. exists [], [].
    split; [reflexivity|]. split; [rewrite len_nil; lia|]. rewrite app_nil_r. split; [exact S|lia].
  - rewrite len_cons in *. pose proof (len_nonneg _ data) as Hl.
    replace (n =? 0) with false by lia. cbn [orb]. destruct (ti_nb s =? 0) eqn:E.
    + constructor. exists [], (x :: data). split; [reflexivity|]. rewrite len_nil, app_nil_r. split; [lia|]. split; [exact S|lia].
    + inversion Hd as [|? ? Hx Hd']; subst. rewrite bits_of_cons in S.
      assert (reads D (fun _ => 0) (get_bits f 8) (lsb_bits 8 x ++ bits_of data) x (bits_of data)) as R by (apply (get_bits_lsb D (fun _ => 0) f Hf 8 x); [lia|exact Hx]).
      eapply leads_bind0; [apply R; [apply len_nonneg|exact S]|]. clear S s E R q. intros q x' s [-> S].
      replace (out ++ x :: data) with ((out ++ [x]) ++ data) in HP by (now rewrite <- app_assoc).
      eapply leads_bind0; [apply put_byte_ok; [exact slow_0|exact Hf|exact S|]|].
      { eapply prefix_trans; [|exact HP]. apply prefix_app. }
      clear S s q. intros q [] s S. cbv beta in S.
      eapply leads_imp; [apply (IH turns (n - 1) q s (out ++ [x])); auto; lia|].
      intros q2 F2 c' s' (d1 & d2 & -> & -> & S' & Hz). exists (x :: d1), d2. split; [reflexivity|].
      split; [rewrite len_cons; lia|]. split; [|exact Hz]. now rewrite <- app_assoc in S'.
Qed.
Lemma wait_input_doomed q s bits out : st q [] s bits out -> ti_in s = [] -> doomed q (wait_input f s).
Proof.
  intros S Ei. destruct f as [|[|f']]; [lia|lia|]. cbn [wait_input]. rewrite Ei.
  eapply doomed_need; [exact S|exact Ei|cbn [wait_input ti_in]; reflexivity|reflexivity|reflexivity].
Qed.
Lemma bits_of_inj a b : bytes_ok a -> bytes_ok b -> bits_of a = bits_of b -> a = b.
Proof.
  intros Ha Hb E. destruct (bits_of_prefix b a [] Hb Ha) as (t & -> & Et); [now rewrite app_nil_r|].
  destruct t; [now rewrite app_nil_r|]. apply (f_equal (@len bool)) in Et. rewrite bits_of_len, len_cons, len_nil in Et.
  pose proof (len_nonneg _ t). lia.
Qed.
Lemma stored_bytes_short : forall turns data n q s out, bytes_ok data -> len data < n ->
  st q [] s (bits_of data) out -> prefix (out ++ data) D -> len (out ++ data) < len D -> len data < Z.of_nat turns ->
  ti_nb s = 0 -> doomed q (stored_bytes turns f n s).
Proof.
  induction turns as [|turns IH]; intros data n q s out Hd Hn S HP HD Ht Hz; [pose proof (len_nonneg _ data); lia|].
  pose proof (len_nonneg _ data) as Hl. cbn [stored_bytes]. replace (n =? 0) with false by lia. rewrite len_app in HD.
  eapply leads_doomed; [apply wait_room_ok; [exact Hf|exact S|lia]|].
  clear S q. intros q [] s1 (S & Hc & Hn1). cbv beta in *. rewrite Hz in Hn1. clear Hz s. rename s1 into s.
  assert (ti_in s = data) as Ei.
  { destruct S as ((Wn & Wb & Wi) & (WF & Ea & _) & _). unfold ahead in Ea. rewrite Hn1, app_nil_r in Ea.
    apply bits_of_inj; auto. }
  destruct data as [|x data'] eqn:Edata.
  { apply doomed_bind. eapply wait_input_doomed; eauto. }
  rewrite <- Edata in *. assert (1 <= len data) as Hl1 by (rewrite Edata, len_cons; pose proof (len_nonneg _ data'); lia).
  assert (wait_input f s = RDone tt s) as Ew by (destruct f; cbn [wait_input]; rewrite Ei, Edata; reflexivity).
  unfold tbind. rewrite Ew. cbn [res_bind]. unfold TINFL_LZ_DICT_SIZE. rewrite Ei. cbv zeta.
  destruct S as ((Wn & Wb & Wi) & (WF & Ea & _) & Win & _ & Wq).
  assert (0 <= ti_cur s) as C0 by apply Win.
  set (n0 := Z.min (Z.min (32768 - ti_cur s) (len data)) n).
  assert (1 <= n0 <= len data /\ n0 <= 32768 - ti_cur s) as Hn0 by lia.
    replace ((n0 <? 0) || (ti_cur s <? 0) || (ti_cur s + n0 >? 32768) || (n0 >? len data)) with false by lia.
  assert (bytes_ok (ztake n0 data) /\ bytes_ok (zdrop n0 data)) as [Hd1 Hd2]
    by (apply bytes_ok_app; rewrite ztake_zdrop; exact Hd).
  assert (prefix ((out ++ ztake n0 data) ++ zdrop n0 data) D) as HP1 by (rewrite <- app_assoc, ztake_zdrop; exact HP).
  apply (IH (zdrop n0 data) _ _ _ (out ++ ztake n0 data)); auto.
  - rewrite len_zdrop. lia.
  - split; [|split; [split; [exact WF|split]|split; [|split]]].
    + split; [exact Wn|]. split; [exact Wb|]. cbn [ti_in]. exact Hd2.
    + unfold ahead. cbn [ti_nb ti_bb ti_in]. rewrite Hn1, app_nil_r. reflexivity.
    + apply len_nonneg.
    + cbn [ti_dict ti_cur].
      assert (len (ztake n0 data) = n0) as El by (rewrite len_ztake; lia).
      rewrite <- El at 2. apply win_all; [exact Win|lia].
    + eapply prefix_trans; [|exact HP1]. apply prefix_app.
    + rewrite len_app. pose proof (len_nonneg _ (ztake n0 data)). lia.
  - rewrite <- app_assoc, ztake_zdrop, len_app. lia.
  - rewrite len_zdrop. lia.
Qed.
Lemma stored_data_doomed turns pad n data q s out : len pad < 8 -> len data < n < 65536 -> bytes_ok data ->
  st q [] s (pad ++ lsb_bits 16 n ++ lsb_bits 16 (65535 - n) ++ bits_of data) out ->
  prefix (out ++ data) D -> len (out ++ data) < len D -> len data < Z.of_nat turns ->
  doomed q (stored_block turns f s).
Proof.
  intros Hpad Hn Hd S HP HD Ht. pose proof (len_nonneg _ data) as Hl.
  eapply (stored_lengths turns pad n (65535 - n) (bits_of data)); eauto; try lia.
  { rewrite bits_of_len. replace (8 * len data) with (0 + len data * 8) by lia. now rewrite Z_mod_plus_full. }
  clear S s q. intros _ q s S.
  eapply leads_doomed; [apply (stored_bits_short data turns n q s out); auto; lia|].
  intros q2 c' s' (d1 & d2 & -> & -> & S' & Hz). apply bytes_ok_app in Hd. rewrite len_app in *. pose proof (len_nonneg _ d1).
  eapply (stored_bytes_short turns d2 _ q2 s' (out ++ d1)); auto; try lia.
  - apply Hd.
  - now rewrite <- app_assoc.
  - rewrite !len_app in *. lia.
Qed.
End Blocks.
