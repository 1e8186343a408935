(** Compressed blocks that cannot be read. *)
From Coq Require Import ZArith List Bool Lia.
From Verif Require Import Base BaseFacts Arr DeflateSpec DeflateFaults Tinfl BitFacts HuffFacts HuffBuild
  InflCopy InflBits InflRun InflBlocks InflFault InflFault2.
Import ListNotations.
Open Scope Z_scope.

Lemma build_table_fail L s : lens_ok L -> ~ valid_code L -> build_table L s = RFailed s.
Proof.
  intros HL HV. unfold build_table. rewrite total_code_kraft, used_syms_eq by assumption.
  destruct (negb (65536 =? 2 * kraft L) && (used_symbols L >? 1)) eqn:E; [reflexivity|].
  exfalso. apply HV. split; [exact HL|]. unfold kraft in E. change (2 ^ 15) with 32768.
  destruct (65536 =? _) eqn:E1 in E; [left; lia|right; cbn [negb andb] in E; lia].
Qed.
Lemma valid_code_dec L : lens_ok L -> valid_code L \/ ~ valid_code L.
Proof.
  intros HL. unfold valid_code. destruct (Z.eq_dec (zsum (map space_of L)) (2 ^ 15)); [left; auto|].
  destruct (Z_le_gt_dec (used_symbols L) 1); [left; auto|]. right. intros [_ [H|H]]; [congruence|lia].
Qed.
Lemma so_far_length LL DL ts bs : lens_ok LL -> tokens_so_far LL DL ts bs -> (length ts <= length bs)%nat.
Proof.
  intros HL. induction 1 as [|t b ts bs Ht Hts IH]; [cbn; lia|].
  rewrite app_length. cbn [length]. assert (1 <= length b)%nat; [|lia].
  destruct Ht as [c Hc Hin|k lb lx le j db dx de Hk Hle Hin Hj Hde Hin2]; rewrite ?app_length, codeword_length; destruct Hin; lia.
Qed.
Lemma lengths_range CL l b r : lengths_bits CL l b r -> Forall (fun x => 0 <= x <= 15) l -> Forall (fun x => 0 <= x <= 15) r.
Proof.
  assert (forall x n, 0 <= x <= 15 -> Forall (fun y => 0 <= y <= 15) (zrepeat x n)) as HR.
  { intros x n Hx. unfold zrepeat. induction (Z.to_nat n); cbn [repeat]; constructor; auto. }
  induction 1 as [l|l x b r Hx Hin H IH|l x e b r Hin He H IH|l e b r Hin He H IH|l e b r Hin He H IH]; intros F; auto; apply IH.
  - apply Forall_app. split; [exact F|]. constructor; [lia|constructor].
  - apply Forall_app in F. destruct F as [F1 F2]. apply Forall_app. split; [exact F1|]. apply Forall_app. split; [exact F2|].
    apply HR. inversion F2; assumption.
  - apply Forall_app. split; [exact F|]. apply HR. lia.
  - apply Forall_app. split; [exact F|]. apply HR. lia.
Qed.

Lemma fixed_sizes : len fixed_lengths <= 288 /\ len fixed_distances <= 32.
Proof. split; reflexivity || (apply Z.leb_le; reflexivity). Qed.

Section Compressed.
Variable D : bytes.
Local Notation st := (InflBits.st D (fun _ => 0)).
Local Notation leads := (InflBits.leads D (fun _ => 0)).
Local Notation doomed := (doomed D).
Variable f : nat.
Hypothesis Hf : (2 <= f)%nat.

Lemma leads_doomed2 {A B C} P (m : T A) (k : A -> T B) (g : B -> T C) q s : leads P q [] (m s) ->
  (forall q' a s', P q' [] a s' -> doomed q' (tbind (k a) g s')) -> doomed q (tbind (tbind m k) g s).
Proof.
  intros H Hg. unfold tbind at 1 2. remember [] as F eqn:EF. revert EF.
  induction H as [q F a s' HP|q F s' k' bits out S Hl Hc H IH|q F s' k' bits out S Hi HF H IH]; intros EF; subst F; cbn [res_bind].
  - apply (Hg _ _ _ HP).
  - eapply doomed_more; eauto. specialize (IH [] [] eq_refl Hg eq_refl). now rewrite app_nil_r in IH.
  - congruence.
Qed.
Lemma reads_doomed2 {A B C} (m : T A) (k : A -> T B) (g : B -> T C) a bits rest out q s :
  reads D (fun _ => 0) m bits a rest -> st q [] s bits out ->
  (forall q' s', st q' [] s' rest out -> doomed q' (tbind (k a) g s')) -> doomed q (tbind (tbind m k) g s).
Proof.
  intros R S Hg. eapply leads_doomed2; [apply R; [apply len_nonneg|exact S]|]. intros q' a' s' [-> S']. auto.
Qed.

(** ** Code lengths *)
Lemma code_sizes_cut : forall order sizes b q s out, len b < 3 * len order -> st q [] s b out ->
  doomed q (read_code_sizes f order sizes s).
Proof.
  induction order as [|i order IH]; intros sizes b q s out Hl S; cbn [read_code_sizes].
  - rewrite len_nil in Hl. pose proof (len_nonneg _ b). lia.
  - rewrite len_cons in Hl. destruct (Z_lt_ge_dec (len b) 3) as [H3|H3].
    + apply doomed_bind. eapply get_bits_doomed; eauto. lia.
    + destruct (take_bits 3 b ltac:(lia)) as (v & b' & -> & Hv & Hb').
      eapply reads_doomed; [apply (get_bits_lsb D (fun _ => 0) f Hf 3 v); [lia|exact Hv]|exact S|].
      intros q' s' S'. eapply IH; eauto. lia.
Qed.
Lemma repeat_facts x base ex : In (x, base, ex) repeat_codes ->
  16 <= x /\ nth (Z.to_nat (x - 16)) [2; 3; 7] 0 = ex /\ nth (Z.to_nat (x - 16)) [3; 3; 11] 0 = base /\ 0 <= ex <= 7 /\ 3 <= base
  /\ base + 2 ^ ex <= 139.
Proof. intros [H|[H|[H|[]]]]; injection H as <- <- <-; repeat split; vm_compute; congruence. Qed.
Lemma lengths_fault_doomed {A} (g : list Z -> T A) CL h total : valid_code CL -> len CL = 19 -> table_ok CL h -> total <= 320 ->
  forall acc bl l, lengths_bits CL acc bl l -> len l < total -> forall b, lengths_fault CL total l b ->
  forall turns q s out, total - len acc <= Z.of_nat turns -> st q [] s (bl ++ b) out ->
  doomed q (tbind (read_lengths turns f h total acc) (fun l => if negb (total =? len l) then tfail else g l) s).
Proof.
  intros V HC HT H320. pose proof (valid_kraft CL V) as KC. assert (lens_ok CL) as LO by apply V.
  assert (len CL <= 512) as H512 by lia.
  assert (forall x tail, in_code CL x -> reads D (fun _ => 0) (huff_decode f h) (codeword CL x ++ tail) x tail) as HD
    by (intros; eapply huff_decode_ok; eauto).
  induction 1 as [l|l x b r Hx Hin H IH|l x e b r Hin He H IH|l e b r Hin He H IH|l e b r Hin He H IH];
    intros Hl b' HF turns q s out Ht S.
  2-5: destruct (lengths_grow f Hf _ _ _ _ H) as [G1 _]; rewrite ?len_app, ?len_zrepeat in G1; try change (len [x]) with 1 in G1.
  all: pose proof (len_nonneg _ l) as Hl0.
  all: (destruct turns as [|turns]; [exfalso; rewrite ?len_app in *; try change (len [x]) with 1 in *; lia|]); cbn [read_lengths].
  - replace (len l <? total) with true by lia. cbn [app] in S.
    destruct HF as [b HS|b El Hin|x base ex e Hin0 Hin He|x base ex e b Hin0 Hin He Hmany].
    + apply doomed_bind. apply doomed_bind. eapply (huff_doomed D f Hf CL h); eauto.
    + eapply reads_doomed2; [apply HD; exact Hin|exact S|]. intros q' s' S'.
      change (16 <? 16) with false. change (16 =? 16) with true. cbv iota. subst l. cbn [len length Z.of_nat Z.eqb andb].
      apply doomed_bind. eapply doomed_fail; eassumption.
    + destruct (repeat_facts _ _ _ Hin0) as (H16 & E1 & E2 & Hex & Hba & Hsum).
      eapply reads_doomed2; [apply HD; exact Hin|exact S|]. intros q' s' S'.
      replace (x <? 16) with false by lia. destruct ((x =? 16) && (len l =? 0)); [apply doomed_bind; eapply doomed_fail; eassumption|].
      rewrite E1, E2. apply doomed_bind. apply doomed_bind. eapply get_bits_doomed; eauto. lia.
    + destruct (repeat_facts _ _ _ Hin0) as (H16 & E1 & E2 & Hex & Hba & Hsum).
      eapply reads_doomed2; [apply HD; exact Hin|exact S|]. clear S s q. intros q s S.
      replace (x <? 16) with false by lia. destruct ((x =? 16) && (len l =? 0)); [apply doomed_bind; eapply doomed_fail; eassumption|].
      rewrite E1, E2.
      eapply reads_doomed2; [apply (get_bits_lsb D (fun _ => 0) f Hf ex e); [lia|exact He]|exact S|]. clear S s q. intros q s S.
      cbv zeta. unfold LEN_CODES_SIZE. replace (len l + (e + base) >? 457) with false by lia.
      set (l2 := l ++ _). assert (len l2 = len l + (e + base)) as El2 by (unfold l2; rewrite len_app, len_zrepeat; lia).
      assert (read_lengths turns f h total l2 s = RDone l2 s) as E.
      { destruct turns; cbn [read_lengths]; replace (len l2 <? total) with false by lia; reflexivity. }
      unfold tbind. rewrite E. cbn [res_bind]. replace (total =? len l2) with false by lia. eapply doomed_fail; eassumption.
  - replace (len l <? total) with true by lia. rewrite <- app_assoc in S.
    eapply reads_doomed2; [apply HD; exact Hin|exact S|]. clear S s q. intros q s S.
    replace (x <? 16) with true by lia. eapply IH; eauto. rewrite len_app. change (len [x]) with 1. lia.
  - rewrite len_app in Ht. change (len [x]) with 1 in Ht.
    replace (len (l ++ [x]) <? total) with true by (rewrite len_app; change (len [x]) with 1; lia). rewrite <- !app_assoc in S.
    eapply reads_doomed2; [apply HD; exact Hin|exact S|]. clear S s q. intros q s S.
    change (16 <? 16) with false. change (16 =? 16) with true. cbv iota.
    replace (len (l ++ [x]) =? 0) with false by (rewrite len_app; change (len [x]) with 1; lia).
    cbn [andb]. change (Z.to_nat (16 - 16)) with 0%nat. cbn [nth].
    eapply reads_doomed2; [apply (get_bits_lsb D (fun _ => 0) f Hf 2 e); [lia|exact He]|exact S|]. clear S s q. intros q s S.
    cbv zeta. unfold LEN_CODES_SIZE. rewrite len_app. change (len [x]) with 1.
    replace (len l + 1 + (e + 3) >? 457) with false by lia.
    rewrite last_last. replace (e + 3) with (3 + e) by lia. rewrite <- app_assoc.
    eapply IH; eauto. rewrite !len_app, len_zrepeat. change (len [x]) with 1. lia.
  - replace (len l <? total) with true by lia. rewrite <- !app_assoc in S.
    eapply reads_doomed2; [apply HD; exact Hin|exact S|]. clear S s q. intros q s S.
    change (17 <? 16) with false. change (17 =? 16) with false. cbn [andb]. cbv iota.
    change (Z.to_nat (17 - 16)) with 1%nat. cbn [nth].
    eapply reads_doomed2; [apply (get_bits_lsb D (fun _ => 0) f Hf 3 e); [lia|exact He]|exact S|]. clear S s q. intros q s S.
    cbv zeta. unfold LEN_CODES_SIZE. replace (len l + (e + 3) >? 457) with false by lia.
    replace (e + 3) with (3 + e) by lia. eapply IH; eauto. rewrite len_app, len_zrepeat. lia.
  - replace (len l <? total) with true by lia. rewrite <- !app_assoc in S.
    eapply reads_doomed2; [apply HD; exact Hin|exact S|]. clear S s q. intros q s S.
    change (18 <? 16) with false. change (18 =? 16) with false. cbn [andb]. cbv iota.
    change (Z.to_nat (18 - 16)) with 2%nat. cbn [nth].
    eapply reads_doomed2; [apply (get_bits_lsb D (fun _ => 0) f Hf 7 e); [lia|exact He]|exact S|]. clear S s q. intros q s S.
    cbv zeta. unfold LEN_CODES_SIZE. replace (len l + (e + 11) >? 457) with false by lia.
    replace (e + 11) with (11 + e) by lia. eapply IH; eauto. rewrite len_app, len_zrepeat. lia.
Qed.

(** ** Dynamic blocks *)
Lemma counts_cut turns b q s out : len b < 14 -> st q [] s b out -> doomed q (dynamic_block turns f s).
Proof.
  intros Hl S. unfold dynamic_block. 
  destruct (Z_lt_ge_dec (len b) 5) as [H|H]; [apply doomed_bind; eapply get_bits_doomed; eauto; lia|].
  destruct (take_bits 5 b ltac:(lia)) as (v & b1 & -> & Hv & Hb).
  eapply reads_doomed; [apply (get_bits_lsb D (fun _ => 0) f Hf 5 v); [lia|exact Hv]|exact S|]. clear S s q. intros q s S.
  destruct (Z_lt_ge_dec (len b1) 5) as [H1|H1]; [apply doomed_bind; eapply get_bits_doomed; eauto; lia|].
  destruct (take_bits 5 b1 ltac:(lia)) as (v1 & b2 & -> & Hv1 & Hb1).
  eapply reads_doomed; [apply (get_bits_lsb D (fun _ => 0) f Hf 5 v1); [lia|exact Hv1]|exact S|]. clear S s q. intros q s S.
  apply doomed_bind. eapply get_bits_doomed; eauto; lia.
Qed.
(** after the counts *)
Definition after_counts (turns : nat) (nl nd nc : Z) : T unit :=
  tbind (read_code_sizes f (ztake nc length_order) (repeat 0 19)) (fun cl =>
  tbind (build_table cl) (fun h2 =>
  tbind (read_lengths 320 f h2 (nl + nd) []) (fun l =>
  if negb (nl + nd =? len l) then tfail
  else tbind (build_table (zdrop nl l)) (fun h1 =>
       tbind (build_table (ztake nl l)) (fun h0 => codes turns f h0 h1))))).
Lemma counts_doomed turns nl nd nc b q s out : 257 <= nl <= 288 -> 1 <= nd <= 32 -> 4 <= nc <= 19 ->
  st q [] s (lsb_bits 5 (nl - 257) ++ lsb_bits 5 (nd - 1) ++ lsb_bits 4 (nc - 4) ++ b) out ->
  (forall q' s', st q' [] s' b out -> doomed q' (after_counts turns nl nd nc s')) ->
  doomed q (dynamic_block turns f s).
Proof.
  intros Hnl Hnd Hnc S H. unfold dynamic_block.
  eapply reads_doomed; [apply (get_bits_lsb D (fun _ => 0) f Hf 5 (nl - 257)); [lia|change (2 ^ 5) with 32; lia]|exact S|]. clear S s q. intros q s S.
  eapply reads_doomed; [apply (get_bits_lsb D (fun _ => 0) f Hf 5 (nd - 1)); [lia|change (2 ^ 5) with 32; lia]|exact S|]. clear S s q. intros q s S.
  eapply reads_doomed; [apply (get_bits_lsb D (fun _ => 0) f Hf 4 (nc - 4)); [lia|change (2 ^ 4) with 16; lia]|exact S|]. clear S s q. intros q s S.
  replace (nc - 4 + 4) with nc by lia. replace (nl - 257 + 257) with nl by lia. replace (nd - 1 + 1) with nd by lia.
  cbv zeta. change s_length_dezigzag with length_order. apply H. exact S.
Qed.
Lemma code_lengths_cut turns nl nd nc b q s out : 257 <= nl <= 288 -> 1 <= nd <= 32 -> 4 <= nc <= 19 -> len b < 3 * nc ->
  st q [] s (lsb_bits 5 (nl - 257) ++ lsb_bits 5 (nd - 1) ++ lsb_bits 4 (nc - 4) ++ b) out ->
  doomed q (dynamic_block turns f s).
Proof.
  intros Hnl Hnd Hnc Hl S. eapply counts_doomed; eauto. clear S s q. intros q s S.
  apply doomed_bind. eapply code_sizes_cut; [|exact S]. rewrite len_ztake. change (len length_order) with 19. lia.
Qed.
(** after the lengths of the code length code *)
Lemma start_doomed turns nl nd nc CL h b q s out : dynamic_start nl nd nc CL h -> st q [] s (h ++ b) out ->
  (forall q' s', st q' [] s' b out -> doomed q'
     (tbind (build_table CL) (fun h2 =>
      tbind (read_lengths 320 f h2 (nl + nd) []) (fun l =>
      if negb (nl + nd =? len l) then tfail
      else tbind (build_table (zdrop nl l)) (fun h1 =>
           tbind (build_table (ztake nl l)) (fun h0 => codes turns f h0 h1)))) s')) ->
  doomed q (dynamic_block turns f s).
Proof.
  intros (Hnl & Hnd & Hnc & HC & H7 & Hz & ->) S H. rewrite <- !app_assoc in S.
  eapply counts_doomed; eauto. clear S s q. intros q s S. unfold after_counts.
  eapply reads_doomed; [apply (read_code_sizes_ok D (fun _ => 0) f Hf CL); exact H7|exact S|]. clear S s q. intros q s S.
  rewrite (code_sizes_eq f Hf) by auto. apply H. exact S.
Qed.
Lemma code_length_code_doomed turns nl nd nc CL h b q s out : dynamic_start nl nd nc CL h -> ~ valid_code CL ->
  st q [] s (h ++ b) out -> doomed q (dynamic_block turns f s).
Proof.
  intros HS HV S. eapply start_doomed; eauto. clear S s q. intros q s S.
  apply doomed_bind. rewrite build_table_fail; [eapply doomed_fail; eassumption| |exact HV].
  destruct HS as (_ & _ & _ & _ & H7 & _). eapply Forall_impl; [|exact H7]. intros; cbv beta in *; lia.
Qed.
Lemma lengths_doomed turns nl nd nc CL h bl l b q s out : dynamic_start nl nd nc CL h -> valid_code CL ->
  lengths_bits CL [] bl l -> len l < nl + nd -> lengths_fault CL (nl + nd) l b ->
  st q [] s (h ++ bl ++ b) out -> doomed q (dynamic_block turns f s).
Proof.
  intros HS VC HL Hl HF S. eapply start_doomed; eauto. clear S s q. intros q s S.
  destruct HS as (Hnl & Hnd & _ & HC & _).
  destruct (build_table_any CL ltac:(apply VC) VC ltac:(lia)) as (h2 & T2 & E2).
  eapply reads_doomed; [apply (reads_table D (fun _ => 0) _ _ E2)|exact S|]. clear S s q. intros q s S.
  eapply (lengths_fault_doomed _ CL h2 (nl + nd)); eauto; [lia|]. change (len []) with 0. lia.
Qed.
Lemma all_lengths_doomed turns nl nd nc CL h bl LL DL b q s out : dynamic_start nl nd nc CL h -> valid_code CL ->
  lengths_bits CL [] bl (LL ++ DL) -> len LL = nl -> len DL = nd -> st q [] s (h ++ bl ++ b) out ->
  (forall q' s', st q' [] s' b out -> doomed q'
     (tbind (build_table DL) (fun h1 => tbind (build_table LL) (fun h0 => codes turns f h0 h1)) s')) ->
  doomed q (dynamic_block turns f s).
Proof.
  intros HS VC HL EL ED S H. eapply start_doomed; eauto. clear S s q. intros q s S.
  destruct HS as (Hnl & Hnd & _ & HC & _).
  destruct (build_table_any CL ltac:(apply VC) VC ltac:(lia)) as (h2 & T2 & E2).
  eapply reads_doomed; [apply (reads_table D (fun _ => 0) _ _ E2)|exact S|]. clear S s q. intros q s S.
  eapply reads_doomed; [eapply (read_lengths_ok D (fun _ => 0) f Hf CL h2 _ (nl + nd) VC HC T2); [exact HL|rewrite len_app; lia|lia|change (len []) with 0; lia]|exact S|].
  clear S s q. intros q s S.
  rewrite len_app. replace (nl + nd =? len LL + len DL) with true by lia. cbn [negb].
  rewrite zdrop_app_exact, ztake_app_exact by lia. apply H. exact S.
Qed.
Lemma codes_invalid_doomed turns nl nd nc CL h bl LL DL b q s out : dynamic_start nl nd nc CL h -> valid_code CL ->
  lengths_bits CL [] bl (LL ++ DL) -> len LL = nl -> len DL = nd -> ~ valid_code LL \/ ~ valid_code DL ->
  st q [] s (h ++ bl ++ b) out -> doomed q (dynamic_block turns f s).
Proof.
  intros HS VC HL EL ED HV S. eapply all_lengths_doomed; eauto. clear S s q. intros q s S.
  pose proof (lengths_range _ _ _ _ HL ltac:(constructor)) as HR. apply Forall_app in HR. destruct HR as [R0 R1].
  destruct HS as (Hnl & Hnd & _).
  destruct (valid_code_dec DL R1) as [V1|V1].
  - destruct (build_table_any DL R1 V1 ltac:(lia)) as (h1 & T1 & E1).
    eapply reads_doomed; [apply (reads_table D (fun _ => 0) _ _ E1)|exact S|]. clear S s q. intros q s S. apply doomed_bind.
    rewrite build_table_fail; [eapply doomed_fail; eassumption|exact R0|]. tauto.
  - apply doomed_bind. rewrite build_table_fail; [eapply doomed_fail; eassumption|exact R1|exact V1].
Qed.
Lemma tokens_cut turns LL DL ts bs b r q s out : len LL <= 288 -> len DL <= 32 -> valid_code LL -> valid_code DL ->
  tokens_so_far LL DL ts bs -> expands out ts r -> prefix r D -> token_cut LL DL b ->
  st q [] s (bs ++ b) out -> (length bs < turns)%nat ->
  doomed q (tbind (build_table DL) (fun h1 => tbind (build_table LL) (fun h0 => codes turns f h0 h1)) s).
Proof.
  intros HL HD V0 V1 Hts HX HP HC S Ht.
  destruct (build_table_any DL ltac:(apply V1) V1 ltac:(lia)) as (h1 & T1 & E1).
  destruct (build_table_any LL ltac:(apply V0) V0 ltac:(lia)) as (h0 & T0 & E0).
  eapply reads_doomed; [apply (reads_table D (fun _ => 0) _ _ E1)|exact S|]. clear S s q. intros q s S.
  eapply reads_doomed; [apply (reads_table D (fun _ => 0) _ _ E0)|exact S|]. clear S s q. intros q s S.
  eapply (codes_doomed D LL DL h0 h1 V0 V1 ltac:(lia) ltac:(lia) T0 T1 f Hf); eauto.
  pose proof (so_far_length LL DL ts bs ltac:(apply V0) Hts). lia.
Qed.
Lemma dynamic_cut turns nl nd nc CL h bl LL DL ts bs b r q s out : dynamic_start nl nd nc CL h -> valid_code CL ->
  lengths_bits CL [] bl (LL ++ DL) -> len LL = nl -> len DL = nd -> valid_code LL -> valid_code DL ->
  tokens_so_far LL DL ts bs -> expands out ts r -> prefix r D -> token_cut LL DL b ->
  st q [] s (h ++ bl ++ bs ++ b) out -> (length bs < turns)%nat -> doomed q (dynamic_block turns f s).
Proof.
  intros HS VC HL EL ED V0 V1 Hts HX HP HC S Ht. eapply all_lengths_doomed; eauto. clear S s q. intros q s S.
  destruct HS as (Hnl & Hnd & _). eapply tokens_cut; eauto; lia.
Qed.
Lemma fixed_cut turns ts bs b r q s out :
  tokens_so_far fixed_lengths fixed_distances ts bs -> expands out ts r -> prefix r D ->
  token_cut fixed_lengths fixed_distances b ->
  st q [] s (bs ++ b) out -> (length bs < turns)%nat -> doomed q (fixed_block turns f s).
Proof.
  intros Hts HX HP HC S Ht. destruct fixed_sizes as [F0 F1].
  exact (tokens_cut turns fixed_lengths fixed_distances ts bs b r q s out F0 F1 (fixed_lengths_valid f Hf) (fixed_distances_valid f Hf)
    Hts HX HP HC S Ht).
Qed.
End Compressed.
