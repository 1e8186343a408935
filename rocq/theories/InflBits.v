(** Reading bits and symbols in tinfl. *)
From Coq Require Import ZArith List Bool Lia.
From Verif Require Import Base BaseFacts Arr DeflateSpec Tinfl BitFacts HuffFacts HuffBuild InflCopy.
Import ListNotations.
Open Scope Z_scope.

(** ** The bits ahead *)
(** [F]: input that will be offered in later calls *)
Definition ahead (F : bytes) (s : tst) : list bool :=
  lsb_bits (Z.to_nat (ti_nb s)) (ti_bb s) ++ bits_of (ti_in s ++ F).
Definition wf (s : tst) : Prop :=
  0 <= ti_nb s <= 61 /\ 0 <= ti_bb s < 2 ^ ti_nb s /\ bytes_ok (ti_in s).
Definition at_bits (F : bytes) (s : tst) (bits : list bool) (d : arr) (c : Z) : Prop :=
  wf s /\ ahead F s = bits /\ ti_dict s = d /\ ti_cur s = c.

Lemma app_inj_len {A} (a b c d : list A) : a ++ b = c ++ d -> length a = length c -> a = c /\ b = d.
Proof.
  revert c. induction a as [|x a IH]; intros [|y c] H Hl; cbn in *; try lia; [auto|].
  injection H as -> H. destruct (IH c H ltac:(lia)). subst. auto.
Qed.
Lemma u64_small x : 0 <= x < 2 ^ 64 -> u64 x = x.
Proof. intros. apply Z.mod_small. exact H. Qed.
Lemma lsb_concat n w bb c : 0 <= bb < 2 ^ Z.of_nat n ->
  lsb_bits (n + w) (bb + c * 2 ^ Z.of_nat n) = lsb_bits n bb ++ lsb_bits w c.
Proof.
  intros H. assert (0 < 2 ^ Z.of_nat n) by (apply pow2_pos; lia).
  rewrite lsb_bits_app. f_equal.
  - rewrite <- lsb_mod. rewrite Z_mod_plus_full, lsb_mod. reflexivity.
  - rewrite Z.div_add by lia. rewrite Z.div_small by lia. now rewrite Z.add_0_l.
Qed.
(** appending w bits to the buffer *)
Lemma add_bits_ok c w F s bits d k rest :
  wf s -> 0 <= w -> 0 <= c < 2 ^ w -> ti_nb s + w <= 61 ->
  bits_of (ti_in s ++ F) = bits ->
  lsb_bits (Z.to_nat w) c ++ bits = rest ->
  ti_dict s = d -> ti_cur s = k ->
  exists s', add_bits c w s = RDone tt s' /\
    at_bits F s' (lsb_bits (Z.to_nat (ti_nb s)) (ti_bb s) ++ rest) d k /\ ti_nb s' = ti_nb s + w /\ ti_in s' = ti_in s.
Proof.
  intros (Hn & Hb & Hi) Hw Hc Hnw Eb Er Ed Ek. unfold add_bits. replace ((0 <=? ti_nb s) && (ti_nb s <? 64)) with true by lia. eexists. split; [reflexivity|].
  assert (0 < 2 ^ ti_nb s) by (apply pow2_pos; lia).
  assert (c * 2 ^ ti_nb s < 2 ^ (w + ti_nb s)) as B by (rewrite Z.pow_add_r by lia; nia).
  assert (2 ^ (w + ti_nb s) <= 2 ^ 64) by (apply Z.pow_le_mono_r; lia).
  rewrite Z.shiftl_mul_pow2 by lia. rewrite u64_small by lia. rewrite lor_low_high by lia.
  split; [|cbn [set_bits ti_nb ti_in]; auto].
  split; [|cbn [set_bits ti_dict ti_cur]; split; [|auto]].
  - unfold wf. cbn [set_bits ti_nb ti_bb ti_in]. split; [lia|]. split; [|exact Hi].
    rewrite Z.pow_add_r in * by lia. nia.
  - unfold ahead. cbn [set_bits ti_nb ti_bb ti_in].
    replace (Z.to_nat (ti_nb s + w)) with (Z.to_nat (ti_nb s) + Z.to_nat w)%nat by lia.
    rewrite <- (Z2Nat.id (ti_nb s)) at 2 by lia.
    rewrite lsb_concat by (rewrite Z2Nat.id by lia; lia). rewrite <- app_assoc. f_equal. subst. reflexivity.
Qed.
(** one more byte in the buffer *)
Definition load (f : nat) : T unit := tbind (get_byte f) (fun c => add_bits c 8).
Lemma get_byte_ok f s x t : ti_in s = x :: t -> get_byte f s = RDone x (set_in s t).
Proof. intros E. destruct f; cbn [get_byte]; now rewrite E. Qed.
Lemma load_now f F s bits d c : at_bits F s bits d c -> ti_nb s <= 53 -> ti_in s <> [] ->
  exists s', load f s = RDone tt s' /\ at_bits F s' bits d c /\ ti_nb s' = ti_nb s + 8.
Proof.
  intros ((Hn & Hb & Hi) & Ea & Ed & Ec) H53 Hne.
  destruct (ti_in s) as [|x t] eqn:Ei; [congruence|].
  unfold load, tbind. rewrite (get_byte_ok f s x t Ei). cbn [res_bind].
  inversion Hi as [|? ? Hx Ht]; subst.
  destruct (add_bits_ok x 8 F (set_in s t) (bits_of (t ++ F)) (ti_dict s) (ti_cur s) (bits_of ((x :: t) ++ F)))
    as (s' & E & A & N & _); cbn [set_in ti_nb ti_bb ti_in ti_dict ti_cur]; auto.
  - split; [|split]; cbn [set_in ti_nb ti_bb ti_in]; auto.
  - lia.
  - lia.
  - cbn [set_in ti_nb ti_bb] in A, N. exists s'. split; [exact E|]. split; [|exact N].
    unfold ahead. rewrite Ei. exact A.
Qed.
(** taking bits off the buffer *)
Lemma drop_bits_ok w rest F s d c : at_bits F s (w ++ rest) d c -> Z.of_nat (length w) <= ti_nb s ->
  lsb_bits (length w) (ti_bb s) = w /\
  exists s', drop_bits (Z.of_nat (length w)) s = RDone tt s' /\ at_bits F s' rest d c /\
             ti_nb s' = ti_nb s - Z.of_nat (length w) /\ ti_in s' = ti_in s.
Proof.
  intros ((Hn & Hb & Hi) & Ea & Ed & Ec) Hl.
  set (l := length w) in *.
  assert (0 < 2 ^ Z.of_nat l) by (apply pow2_pos; lia).
  assert (lsb_bits (Z.to_nat (ti_nb s)) (ti_bb s) =
          lsb_bits l (ti_bb s) ++ lsb_bits (Z.to_nat (ti_nb s - Z.of_nat l)) (ti_bb s / 2 ^ Z.of_nat l)) as E.
  { replace (Z.to_nat (ti_nb s)) with (l + Z.to_nat (ti_nb s - Z.of_nat l))%nat by lia. apply lsb_bits_app. }
  unfold ahead in Ea. rewrite E, <- app_assoc in Ea.
  assert (lsb_bits l (ti_bb s) = w /\ lsb_bits (Z.to_nat (ti_nb s - Z.of_nat l)) (ti_bb s / 2 ^ Z.of_nat l) ++ bits_of (ti_in s ++ F) = rest) as [E1 E2].
  { apply app_inj_len in Ea; [exact Ea|]. apply lsb_length. }
  split; [exact E1|]. unfold drop_bits. replace ((0 <=? Z.of_nat l) && (Z.of_nat l <? 64) && (Z.of_nat l <=? ti_nb s)) with true by lia. eexists. split; [reflexivity|].
  split; [|cbn [set_bits ti_nb ti_in]; auto].
  split; [|cbn [set_bits ti_dict ti_cur]; split; [|auto]].
  - unfold wf. cbn [set_bits ti_nb ti_bb ti_in]. split; [lia|]. split; [|exact Hi].
    rewrite Z.shiftr_div_pow2 by lia. split; [apply Z.div_pos; lia|].
    apply Z.div_lt_upper_bound; [lia|]. rewrite <- Z.pow_add_r by lia. now replace (Z.of_nat l + (ti_nb s - Z.of_nat l)) with (ti_nb s) by lia.
  - unfold ahead. cbn [set_bits ti_nb ti_bb ti_in]. rewrite Z.shiftr_div_pow2 by lia. exact E2.
Qed.

(** ** Runs through suspensions *)
Lemma win_next q d c out : win q d c out -> win (len out / 32768) d (if c =? 32768 then 0 else c) out.
Proof.
  intros W. assert (len out / 32768 = if c =? 32768 then q + 1 else q) as ->.
  { destruct W as (Hc & (Hq & E) & _). rewrite E. destruct (c =? 32768) eqn:Ec.
    - symmetry. apply Z.div_unique with 0; lia.
    - symmetry. apply Z.div_unique with c; lia. }
  destruct (c =? 32768) eqn:Ec; [|exact W]. apply Z.eqb_eq in Ec. subst c. now apply win_wrap.
Qed.
(** [K n]: how many bits at least are left when [n] bytes were made; a bit makes at most
    129 bytes *)
Definition slow (K : Z -> Z) : Prop :=
  (forall a b, a <= b -> K b <= K a) /\ (forall a d j, 0 <= d <= 129 * j -> K a <= K (a + d) + j).
Lemma slow_0 : slow (fun _ => 0).
Proof. split; intros; lia. Qed.
Section Leads.
(** all the output of the stream; how many bits at least are left *)
Variables (D : bytes) (K : Z -> Z).
(** a state during a call that started when [q] bytes had been handed out *)
Definition st (q : Z) (F : bytes) (s : tst) (bits : list bool) (out : bytes) : Prop :=
  wf s /\ (bytes_ok F /\ ahead F s = bits /\ K (len out) <= len bits) /\ win (q / 32768) (ti_dict s) (ti_cur s) out /\ prefix out D /\ q <= len out.
(** [leads P q F r]: with [q] bytes handed out and [F] still to be offered, the run [r] ends
    well, having stopped only with a full window, or when all the input offered was
    used, each time with output that is a prefix of [D]. *)
Inductive leads {A} (P : Z -> bytes -> A -> tst -> Prop) : Z -> bytes -> res A -> Prop :=
| leads_done q F a s : P q F a s -> leads P q F (RDone a s)
| leads_more q F s k bits out : st q F s bits out -> len out < len D -> ti_cur s = 32768 ->
    (forall c F', F = c ++ F' -> leads P (len out) F' (k (mk_tst (ti_in s ++ c) (ti_bb s) (ti_nb s) (ti_dict s) 0))) ->
    leads P q F (RMore s k)
| leads_need q F s k bits out : st q F s bits out -> ti_in s = [] -> F <> [] ->
    (forall c F', F = c ++ F' -> c <> [] \/ ti_cur s = 32768 ->
       leads P (len out) F'
         (k (mk_tst c (ti_bb s) (ti_nb s) (ti_dict s) (if ti_cur s =? 32768 then 0 else ti_cur s)))) ->
    leads P q F (RNeed s k).
Lemma leads_bind {A B} P Q (m : T A) (g : A -> T B) q F s :
  leads P q F (m s) -> (forall q' F' a s', P q' F' a s' -> leads Q q' F' (g a s')) -> leads Q q F (tbind m g s).
Proof.
  intros H Hg. unfold tbind. induction H as [q F a s' HP|q F s' k bits out S1 Hp Hc H IH|q F s' k bits out S1 Hi HF H IH]; cbn [res_bind].
  - apply Hg. exact HP.
  - eapply leads_more; eauto.
  - eapply leads_need; eauto.
Qed.
Lemma leads_imp {A} (P Q : Z -> bytes -> A -> tst -> Prop) q F r : leads P q F r ->
  (forall q' F' a s, P q' F' a s -> Q q' F' a s) -> leads Q q F r.
Proof. intros H I. induction H; [constructor; auto|eapply leads_more; eauto|eapply leads_need; eauto]. Qed.
(** going on after a suspension *)
Lemma resume_more {A} P q F s (k : tst -> res A) bits out : st q F s bits out -> len out < len D -> ti_cur s = 32768 ->
  (forall q' F' s', st q' F' s' bits out -> ti_cur s' = 0 -> ti_nb s' = ti_nb s -> leads P q' F' (k s')) -> leads P q F (RMore s k).
Proof.
  intros S Hl Hc H. eapply leads_more; eauto. intros c F' ->. apply H; [|reflexivity|reflexivity].
  destruct S as ((Hn & Hb & Hi) & (HF & Ea & HK) & W & Hp & Hq). apply bytes_ok_app in HF. destruct HF as [HF1 HF2].
  split; [|split; [split; [exact HF2|split; [|exact HK]]|split; [|split; [exact Hp|lia]]]].
  - split; [exact Hn|]. split; [exact Hb|]. cbn [ti_in]. apply bytes_ok_app. auto.
  - rewrite <- Ea. unfold ahead. cbn [ti_in ti_nb ti_bb]. now rewrite <- app_assoc.
  - cbn [ti_dict ti_cur]. pose proof (win_next _ _ _ _ W) as N. rewrite Hc in N. exact N.
Qed.
Lemma resume_need {A} P q F s (k : tst -> res A) bits out : st q F s bits out -> ti_in s = [] -> F <> [] ->
  (forall q' F' s', st q' F' s' bits out -> ti_in s' <> [] \/ (ti_in s' = [] /\ F' <> [] /\ ti_cur s = 32768) -> ti_cur s' < 32768 -> ti_nb s' = ti_nb s -> leads P q' F' (k s')) ->
  leads P q F (RNeed s k).
Proof.
  intros S Hi HF0 H. eapply leads_need; eauto. intros c F' -> Hc.
  destruct S as ((Hn & Hb & _) & (HF & Ea & HK) & W & Hp & Hq). apply bytes_ok_app in HF. destruct HF as [HF1 HF2].
  assert (0 <= ti_cur s <= 32768) as Hcur by apply W.
  apply H; [|destruct c; [right; destruct Hc as [Hc|Hc]; [congruence|]; auto|left; discriminate]|cbn [ti_cur]; destruct (ti_cur s =? 32768) eqn:E; lia|reflexivity].
  split; [|split; [split; [exact HF2|split; [|exact HK]]|split; [|split; [exact Hp|lia]]]].
  - split; [exact Hn|]. split; [exact Hb|]. exact HF1.
  - rewrite <- Ea. unfold ahead. cbn [ti_in ti_nb ti_bb]. now rewrite Hi.
  - exact (win_next _ _ _ _ W).
Qed.
Lemma at_st q F s bits out : st q F s bits out -> at_bits F s bits (ti_dict s) (ti_cur s).
Proof. intros (W & (_ & E & _) & _). split; [assumption|auto]. Qed.
Lemma st_at q F s s' bits bits' out : st q F s bits out -> at_bits F s' bits' (ti_dict s) (ti_cur s) -> K (len out) <= len bits' -> st q F s' bits' out.
Proof. intros (_ & (HF & _) & Wi) (W & E & Ed & Ec) HK. split; [assumption|]. split; [auto|]. now rewrite Ed, Ec. Qed.
Lemma more_left q F s bits out : st q F s bits out -> ti_nb s < len bits -> ti_in s = [] -> F <> [].
Proof.
  intros ((Hn & _) & (_ & E & _) & _) Hl Hi ->. unfold ahead in E. rewrite Hi in E. cbn [app bits_of flat_map] in E.
  rewrite app_nil_r in E. rewrite <- E, lsb_len in Hl. lia.
Qed.

(** [reads m bits a rest]: [m] takes [a] off the stream, and makes no output *)
Definition reads {A} (m : T A) (bits : list bool) (a : A) (rest : list bool) : Prop :=
  forall q F s out, K (len out) <= len rest -> st q F s bits out ->
    leads (fun q' F' a' s' => a' = a /\ st q' F' s' rest out) q F (m s).
Lemma reads_now {A} (m : T A) bits a rest :
  (forall F d c s, at_bits F s bits d c -> exists s', m s = RDone a s' /\ at_bits F s' rest d c) -> reads m bits a rest.
Proof.
  intros H q F s out HK S. destruct (H F _ _ s (at_st _ _ _ _ _ S)) as (s' & E & A'). rewrite E. constructor.
  split; [reflexivity|]. eapply st_at; eauto.
Qed.
Lemma reads_ret {A} (a : A) bits : reads (tret a) bits a bits.
Proof. apply reads_now. intros F d c s H. exists s. auto. Qed.
Lemma reads_bind {A B} (m : T A) (g : A -> T B) bits a mid b rest : (forall k, k <= len rest -> k <= len mid) ->
  reads m bits a mid -> reads (g a) mid b rest -> reads (tbind m g) bits b rest.
Proof.
  intros HM Hm Hg q F s out HK H. eapply leads_bind; [apply Hm; eauto|]. intros q' F' a' s' [-> S]. now apply Hg.
Qed.
Lemma leads_reads {A B} (m : T A) (g : A -> T B) Q a bits rest out q F s :
  reads m bits a rest -> st q F s bits out -> K (len out) <= len rest ->
  (forall q' F' s', st q' F' s' rest out -> leads Q q' F' (g a s')) -> leads Q q F (tbind m g s).
Proof.
  intros R S HK Hg. eapply leads_bind; [apply R; eauto|]. intros q' F' a' s' [-> S']. auto.
Qed.

Variable f : nat.
Hypothesis Hf : (2 <= f)%nat.
Lemma get_byte_st q F s bits out : st q F s bits out -> ti_nb s < len bits ->
  leads (fun q' F' x s' => exists s0 t, st q' F' s0 bits out /\ ti_nb s0 = ti_nb s /\ ti_in s0 = x :: t /\ s' = set_in s0 t) q F (get_byte f s).
Proof.
  intros S Hl. destruct (ti_in s) as [|x t] eqn:Ei.
  - pose proof (more_left _ _ _ _ _ S Hl Ei) as HF. destruct f as [|f']; [lia|]. cbn [get_byte]. rewrite Ei.
    eapply resume_need; eauto. intros q' F' s' S' Hi' Hc' Hn'. destruct Hi' as [Hi'|(Hi' & HF' & _)].
    + destruct (ti_in s') as [|x t] eqn:Ei'; [congruence|]. rewrite (get_byte_ok f' s' x t Ei'). constructor.
      exists s', t. auto.
    + destruct f' as [|f2]; [lia|]. cbn [get_byte]. rewrite Hi'. eapply resume_need; eauto.
      intros q2 F2 s2 S2 Hi2 Hc2 Hn2. destruct Hi2 as [Hi2|(_ & _ & Hi2)]; [|lia].
      destruct (ti_in s2) as [|x t] eqn:Ei2; [congruence|]. rewrite (get_byte_ok f2 s2 x t Ei2). constructor.
      exists s2, t. rewrite Ei2, Hn2. auto.
  - rewrite (get_byte_ok f s x t Ei). constructor. exists s, t. auto.
Qed.
Lemma load_ok q F s bits out : st q F s bits out -> ti_nb s <= 53 -> ti_nb s < len bits ->
  leads (fun q' F' _ s' => st q' F' s' bits out /\ ti_nb s' = ti_nb s + 8) q F (load f s).
Proof.
  intros S H53 Hl. unfold load. eapply leads_bind; [apply get_byte_st; eauto|].
  intros q' F' x s' (s0 & t & S0 & N0 & I0 & ->).
  destruct (load_now 0 F' s0 bits _ _ (at_st _ _ _ _ _ S0)) as (s1 & E1 & A1 & N1); [lia|congruence|].
  unfold load, tbind in E1. rewrite (get_byte_ok 0 s0 x t I0) in E1. cbn [res_bind] in E1. rewrite E1.
  constructor. split; [|lia]. eapply st_at; eauto. apply S0.
Qed.
Lemma need_bits_unfold turns n : need_bits (S turns) f n =
  tbind (get_byte f) (fun c => tbind (add_bits c 8) (fun _ => tbind num_bits (fun nb =>
    if nb <? n then need_bits turns f n else tret tt))).
Proof. reflexivity. Qed.
Lemma res_bind_assoc {A B C} (r : res A) (g : A -> T B) (h : B -> T C) P q F :
  leads P q F (res_bind (res_bind r g) h) -> leads P q F (res_bind r (fun a s => res_bind (g a s) h)).
Proof.
  revert q F. induction r as [a s|s k IH|s k IH|s|u]; cbn [res_bind]; intros q F H; try exact H.
  - inversion H; subst. eapply leads_need; eauto.
  - inversion H; subst. eapply leads_more; eauto.
Qed.
Lemma load_bind {A} (g : unit -> T A) Q q F s bits out : st q F s bits out -> ti_nb s <= 53 -> ti_nb s < len bits ->
  (forall q' F' s', st q' F' s' bits out -> ti_nb s' = ti_nb s + 8 -> leads Q q' F' (g tt s')) ->
  leads Q q F (tbind (get_byte f) (fun c => tbind (add_bits c 8) g) s).
Proof.
  intros S H53 Hl H. unfold tbind at 1. apply res_bind_assoc.
  change (leads Q q F (tbind (load f) g s)). eapply leads_bind; [apply load_ok; eauto|].
  intros q' F' [] s' [S' N']. auto.
Qed.
Lemma need_bits_ok turns n q F s bits out : st q F s bits out -> n <= 16 -> n <= len bits ->
  ti_nb s < n -> (n - ti_nb s <= 8 * Z.of_nat turns) ->
  leads (fun q' F' _ s' => st q' F' s' bits out /\ n <= ti_nb s') q F (need_bits turns f n s).
Proof.
  revert q F s. induction turns as [|turns IH]; intros q F s H Hn Hl Hb Ht; [lia|].
  rewrite need_bits_unfold. eapply load_bind; eauto; [lia|lia|]. intros q1 F1 s1 S1 N1.
  unfold tbind at 1. cbn [num_bits res_bind].
  destruct (ti_nb s1 <? n) eqn:E.
  - apply IH; auto; lia.
  - constructor. split; [assumption|lia].
Qed.
Lemma get_bits_ok n w rest : Z.of_nat (length w) = n -> n <= 16 ->
  reads (get_bits f n) (w ++ rest) (bval w) rest.
Proof.
  intros Hw Hn q F s out HK H. unfold get_bits, tbind at 1. cbn [num_bits res_bind].
  apply (leads_bind (fun q' F' _ s1 => st q' F' s1 (w ++ rest) out /\ n <= ti_nb s1)).
  { destruct (ti_nb s <? n) eqn:E.
    - apply need_bits_ok with (bits := w ++ rest); auto; try lia.
      + rewrite len_app. unfold len. lia.
      + destruct H as ((? & _) & _). lia.
    - constructor. split; [assumption|lia]. }
  intros q1 F1 [] s1 [H1 N1].
  unfold tbind at 1. cbn [bit_buf res_bind].
  destruct (drop_bits_ok w rest F1 s1 _ _ (at_st _ _ _ _ _ H1) ltac:(lia)) as (Ew & s2 & E2 & H2 & _).
  unfold tbind. rewrite <- Hw, E2. cbn [res_bind]. unfold tret. constructor. split.
  - rewrite land_mask by lia. rewrite <- bval_lsb. now rewrite Ew.
  - eapply st_at; eauto.
Qed.
Lemma get_bits_lsb n v rest : 0 <= n <= 16 -> 0 <= v < 2 ^ n ->
  reads (get_bits f n) (lsb_bits (Z.to_nat n) v ++ rest) v rest.
Proof.
  intros Hn Hv. replace v with (bval (lsb_bits (Z.to_nat n) v)) at 2.
  - apply get_bits_ok; rewrite ?lsb_length; lia.
  - rewrite bval_lsb, Z2Nat.id by lia. apply Z.mod_small. exact Hv.
Qed.
End Leads.

(** ** Symbols *)
Section Sym.
Variables (L : list Z) (h : huff).
Hypothesis HL : lens_ok L.
Hypothesis H512 : len L <= 512.
Hypothesis HT : table_ok L h.
Variable s : Z.
Hypothesis Hs : in_code L s.
Local Notation l := (code_len L s).
Local Notation w := (codeword L s).

Lemma look_at_bval bb : look_at h bb = arr_get 0 (hf_look h) (bval (lsb_bits 10 bb)).
Proof.
  unfold look_at. f_equal. change (TINFL_FAST_LOOKUP_SIZE - 1) with (Z.ones 10).
  rewrite Z.land_ones by lia. rewrite bval_lsb. reflexivity.
Qed.
Lemma s_done : done L (len L) s.
Proof. split; [assumption|apply Hs]. Qed.
Lemma w_length : length w = Z.to_nat l. Proof. apply codeword_length. Qed.
Lemma l_pos : 0 < l <= 15. Proof. pose proof (code_len_range L s HL). destruct Hs. lia. Qed.
Lemma look_short bb : l <= 10 -> lsb_bits (Z.to_nat l) bb = w -> look_at h bb = l * 512 + s.
Proof.
  intros H E. destruct HT as (labs & I & _). rewrite look_at_bval.
  pose proof l_pos as Lp.
  apply (iv_look_sym _ _ _ _ _ _ I s (lsb_bits 10 bb) (lsb_bits (10 - Z.to_nat l) (bb / 2 ^ Z.of_nat (Z.to_nat l)))).
  - apply lsb_length.
  - apply s_done.
  - unfold cw. rewrite <- E, <- lsb_bits_app. f_equal. lia.
Qed.
Lemma inv_label k p labs look tree : inv L (len L) (len L) labs look tree -> nth_error labs k = Some p -> (10 <= length p)%nat.
Proof. intros I H. apply (lb_from _ _ _ (iv_labels _ _ _ _ _ _ I) p). eapply nth_error_In; eauto. Qed.
(** a step in the tree *)
Lemma tree_step labs k p b r : inv L (len L) (len L) labs (hf_look h) (hf_tree h) -> len labs <= 288 ->
  nth_error labs k = Some p -> w = p ++ b :: r ->
  tree_at (hf_tree h) (- (-1 - 2 * Z.of_nat k) - 1 + b2z b) =
    Ok (arr_get 0 (hf_tree h) (2 * Z.of_nat k + b2z b)) /\
  match r with
  | [] => arr_get 0 (hf_tree h) (2 * Z.of_nat k + b2z b) = s
  | _ => exists k', arr_get 0 (hf_tree h) (2 * Z.of_nat k + b2z b) = -1 - 2 * Z.of_nat k' /\
                    nth_error labs k' = Some (p ++ [b])
  end.
Proof.
  intros I H288 Hk E.
  assert (k < length labs)%nat as Hkl by (apply nth_error_Some; congruence).
  pose proof (b2z01 b).
  replace (- (-1 - 2 * Z.of_nat k) - 1 + b2z b) with (2 * Z.of_nat k + b2z b) by lia.
  split.
  - unfold tree_at, TREE_SIZE.
    replace ((0 <=? 2 * Z.of_nat k + b2z b) && (2 * Z.of_nat k + b2z b <? 576)) with true
      by (symmetry; unfold len in H288; lia). reflexivity.
  - destruct r as [|b' r].
    + eapply iv_tree_sym; eauto using s_done.
    + assert (In (p ++ [b]) labs) as Hin.
      { eapply iv_all; eauto using s_done.
        - exists (b' :: r). split; [discriminate|]. unfold cw. rewrite <- app_assoc. exact E.
        - rewrite app_length. pose proof (inv_label _ _ _ _ _ I Hk). lia. }
      apply In_nth_error in Hin. destruct Hin as [k' Hk']. exists k'. split; [|assumption].
      eapply iv_tree_node; eauto.
Qed.
Lemma bit_at bb j p b r : lsb_bits j bb = p ++ b :: r -> Z.land (Z.shiftr bb (Z.of_nat (length p))) 1 = b2z b.
Proof.
  intros E. rewrite land1_odd. f_equal.
  assert (length p < j)%nat by (apply (f_equal (@length bool)) in E; rewrite lsb_length, app_length in E; cbn in E; lia).
  rewrite <- (lsb_bit j) by assumption. rewrite E, app_nth2, Nat.sub_diag by lia. reflexivity.
Qed.
Lemma look_long bb : 10 < l -> lsb_bits 10 bb = firstn 10 w ->
  exists labs k, inv L (len L) (len L) labs (hf_look h) (hf_tree h) /\ len labs <= 288 /\
    nth_error labs k = Some (firstn 10 w) /\ look_at h bb = -1 - 2 * Z.of_nat k.
Proof.
  intros H E. destruct HT as (labs & I & H288). exists labs.
  pose proof w_length as Wl. pose proof l_pos.
  assert (In (firstn 10 w) labs) as Hin.
  { eapply iv_all; eauto using s_done.
    - exists (skipn 10 w). split; [|symmetry; apply firstn_skipn].
      intros Z. apply (f_equal (@length bool)) in Z. rewrite skipn_length in Z. cbn in Z. lia.
    - rewrite firstn_length. lia. }
  apply In_nth_error in Hin. destruct Hin as [k Hk]. exists k. repeat (split; [assumption|]).
  rewrite look_at_bval, E. eapply iv_look_node; eauto. rewrite firstn_length. lia.
Qed.
Lemma walk_ok labs bb : inv L (len L) (len L) labs (hf_look h) (hf_tree h) -> len labs <= 288 ->
  lsb_bits (Z.to_nat l) bb = w -> forall r p k turns, w = p ++ r -> r <> [] -> nth_error labs k = Some p ->
  (length r <= turns)%nat -> walk turns h bb (-1 - 2 * Z.of_nat k) (Z.of_nat (length p)) = Ok (s, l).
Proof.
  intros I H288 Eb. induction r as [|b r IH]; intros p k turns E Hr Hk Ht; [congruence|].
  destruct turns as [|turns]; [cbn in Ht; lia|]. cbn [walk].
  rewrite (bit_at bb (Z.to_nat l) p b r) by congruence.
  destruct (tree_step labs k p b r I H288 Hk E) as [E1 E2]. rewrite E1. cbn [obind].
  destruct r as [|b' r].
  - rewrite E2. replace (s <? 0) with false by (destruct Hs; lia). do 2 f_equal.
    pose proof w_length as Wl. rewrite E, app_length in Wl. cbn [length] in Wl. pose proof l_pos. lia.
  - destruct E2 as (k' & E2 & Hk'). rewrite E2. replace (-1 - 2 * Z.of_nat k' <? 0) with true by lia.
    replace (Z.of_nat (length p) + 1) with (Z.of_nat (length (p ++ [b]))) by (rewrite app_length; cbn; lia).
    apply IH; [rewrite <- app_assoc; exact E|discriminate|exact Hk'|cbn [length] in *; lia].
Qed.
Lemma huff_entry_ok bb : lsb_bits (Z.to_nat l) bb = w ->
  exists e, huff_entry h bb = Ok (e, l) /\ 0 <= e /\ Z.land e 511 = s /\ (look_at h bb < 0 -> e = s).
Proof.
  intros E. pose proof l_pos. unfold huff_entry.
  destruct (Z_le_gt_dec l 10) as [H10|H10].
  - rewrite (look_short bb H10 E). destruct Hs as [Hr _].
    replace (l * 512 + s >=? 0) with true by lia. exists (l * 512 + s). split; [|split; [lia|split; [|lia]]].
    + do 2 f_equal. rewrite Z.shiftr_div_pow2 by lia. change (2 ^ 9) with 512.
      rewrite Z.add_comm, Z.div_add by lia. rewrite Z.div_small by lia. lia.
    + change 511 with (Z.ones 9). rewrite Z.land_ones by lia. change (2 ^ 9) with 512.
      rewrite Z.add_comm, Z_mod_plus_full. apply Z.mod_small. lia.
  - pose proof w_length as Wl.
    assert (lsb_bits 10 bb = firstn 10 w) as E10 by (rewrite <- E; apply lsb_firstn; lia).
    destruct (look_long bb ltac:(lia) E10) as (labs & k & I & H288 & Hk & El).
    rewrite El. replace (-1 - 2 * Z.of_nat k >=? 0) with false by lia.
    exists s. destruct Hs as [Hr _]. split; [|split; [lia|split; [|auto]]].
    + change TINFL_FAST_LOOKUP_BITS with 10.
      replace 10 with (Z.of_nat (length (firstn 10 w))) by (rewrite firstn_length; lia).
      apply (walk_ok labs bb I H288 E (skipn 10 w)); auto.
      * symmetry. apply firstn_skipn.
      * intros Z. apply (f_equal (@length bool)) in Z. rewrite skipn_length in Z. cbn in Z. lia.
      * rewrite skipn_length. lia.
    + change 511 with (Z.ones 9). rewrite Z.land_ones by lia. apply Z.mod_small. change (2 ^ 9) with 512. lia.
Qed.
(** with enough bits the bounded walk finds the symbol *)
Lemma walk_some_enough labs bb nb : inv L (len L) (len L) labs (hf_look h) (hf_tree h) -> len labs <= 288 ->
  lsb_bits (Z.to_nat l) bb = w -> l <= nb -> forall r p k turns, w = p ++ r -> r <> [] -> nth_error labs k = Some p ->
  (length r <= turns)%nat -> walk_some turns h bb nb (-1 - 2 * Z.of_nat k) (Z.of_nat (length p)) = Ok s.
Proof.
  intros I H288 Eb Hnb. induction r as [|b r IH]; intros p k turns E Hr Hk Ht; [congruence|].
  destruct turns as [|turns]; [cbn in Ht; lia|]. cbn [walk_some].
  rewrite (bit_at bb (Z.to_nat l) p b r) by congruence.
  destruct (tree_step labs k p b r I H288 Hk E) as [E1 E2]. rewrite E1. cbn [obind].
  destruct r as [|b' r].
  - rewrite E2. replace (s <? 0) with false by (destruct Hs; lia). reflexivity.
  - destruct E2 as (k' & E2 & Hk'). rewrite E2. replace (-1 - 2 * Z.of_nat k' <? 0) with true by lia.
    pose proof w_length as Wl. rewrite E, app_length in Wl. cbn [length] in Wl. pose proof l_pos.
    replace (nb >=? Z.of_nat (length p) + 2) with true by lia. cbn [andb].
    replace (Z.of_nat (length p) + 1) with (Z.of_nat (length (p ++ [b]))) by (rewrite app_length; cbn; lia).
    apply IH; [rewrite <- app_assoc; exact E|discriminate|exact Hk'|cbn [length] in *; lia].
Qed.
(** with too few it ends in an inner node *)
Lemma walk_some_few labs bb nb : inv L (len L) (len L) labs (hf_look h) (hf_tree h) -> len labs <= 288 ->
  0 <= nb < l -> lsb_bits (Z.to_nat nb) bb = firstn (Z.to_nat nb) w ->
  forall r p k turns, firstn (Z.to_nat nb) w = p ++ r -> r <> [] -> nth_error labs k = Some p ->
  (length r <= turns)%nat -> exists t, walk_some turns h bb nb (-1 - 2 * Z.of_nat k) (Z.of_nat (length p)) = Ok t /\ t < 0.
Proof.
  intros I H288 Hnb Eb. induction r as [|b r IH]; intros p k turns E Hr Hk Ht; [congruence|].
  destruct turns as [|turns]; [cbn in Ht; lia|]. cbn [walk_some].
  rewrite (bit_at bb (Z.to_nat nb) p b r) by congruence.
  pose proof w_length as Wl.
  assert (w = p ++ b :: (r ++ skipn (Z.to_nat nb) w)) as Ew.
  { rewrite <- (firstn_skipn (Z.to_nat nb) w) at 1. rewrite E, <- app_assoc. reflexivity. }
  destruct (tree_step labs k p b _ I H288 Hk Ew) as [E1 E2]. rewrite E1. cbn [obind].
  destruct (r ++ skipn (Z.to_nat nb) w) as [|b' r'] eqn:Er.
  { apply (f_equal (@length bool)) in Er. rewrite app_length, skipn_length in Er. cbn in Er. lia. }
  destruct E2 as (k' & E2 & Hk'). rewrite E2. replace (-1 - 2 * Z.of_nat k' <? 0) with true by lia.
  apply (f_equal (@length bool)) in E as El. rewrite firstn_length, app_length in El. cbn [length] in El.
  destruct (nb >=? Z.of_nat (length p) + 2) eqn:En; cbn [andb].
  - replace (Z.of_nat (length p) + 1) with (Z.of_nat (length (p ++ [b]))) by (rewrite app_length; cbn; lia).
    apply IH; [rewrite <- app_assoc; exact E| |exact Hk'|cbn [length] in *; lia].
    intros ->. cbn in El. lia.
  - eexists. split; [reflexivity|]. lia.
Qed.

Hypothesis HK : kraft L <= 2 ^ 15.
Lemma dec_sym v n : (exists t r, done L (Z.of_nat n) t /\ v = cw L t ++ r) \/
  (forall t r, done L (Z.of_nat n) t -> v <> cw L t ++ r).
Proof.
  induction n as [|n IH].
  - right. intros t r [[? _] ?]. lia.
  - destruct IH as [(t & r & D & E)|N].
    + left. exists t, r. split; [|assumption]. eapply done_mono; [|exact D]. lia.
    + destruct (Z_lt_ge_dec (Z.of_nat n) (len L)) as [H1|H1].
      2:{ right. intros t r D. apply N. destruct D as [D ?]. split; [assumption|]. destruct D. lia. }
      destruct (Z_lt_ge_dec 0 (code_len L (Z.of_nat n))) as [H2|H2].
      2:{ right. intros t r D. apply N. destruct D as [D ?]. split; [assumption|]. destruct D.
          destruct (Z.eq_dec t (Z.of_nat n)); [subst; lia|lia]. }
      destruct (list_eq_dec bool_dec (firstn (length (cw L (Z.of_nat n))) v) (cw L (Z.of_nat n))) as [E|E].
      * left. exists (Z.of_nat n), (skipn (length (cw L (Z.of_nat n))) v). split; [split; [split|]; lia|].
        rewrite <- E at 1. symmetry. apply firstn_skipn.
      * right. intros t r D Ev. destruct (Z.eq_dec t (Z.of_nat n)) as [->|].
        -- apply E. rewrite Ev, firstn_app, Nat.sub_diag, firstn_all. cbn [firstn]. apply app_nil_r.
        -- apply (N t r); [|assumption]. destruct D. split; [assumption|lia].
Qed.
Lemma look_few bb nb : 0 <= nb < l -> lsb_bits (Z.to_nat nb) bb = firstn (Z.to_nat nb) w ->
  0 <= look_at h bb -> negb (Z.shiftr (look_at h bb) 9 =? 0) && (nb >=? Z.shiftr (look_at h bb) 9) = false.
Proof.
  intros Hnb E Hpos. destruct HT as (labs & I & _). rewrite look_at_bval in *.
  set (v := lsb_bits 10 bb) in *.
  assert (length v = 10%nat) as Lv by apply lsb_length.
  destruct (dec_sym v (length L)) as [(t & r & D & Ev)|N].
  - change (Z.of_nat (length L)) with (len L) in D.
    rewrite (iv_look_sym _ _ _ _ _ _ I t v r Lv D Ev).
    replace (Z.shiftr (code_len L t * 512 + t) 9) with (code_len L t).
    2:{ rewrite Z.shiftr_div_pow2 by lia. change (2 ^ 9) with 512. destruct D as [[? _] ?].
        rewrite Z.add_comm, Z.div_add by lia. rewrite Z.div_small by lia. lia. }
    destruct (nb >=? code_len L t) eqn:En; [|apply andb_false_r]. exfalso.
    pose proof (cw_length L t) as Lt. pose proof (code_len_range L t HL). pose proof w_length as Wl.
    assert (cw L t = firstn (length (cw L t)) w) as Ep.
    { transitivity (firstn (length (cw L t)) v).
      - rewrite Ev, firstn_app, Nat.sub_diag, firstn_all. cbn [firstn]. now rewrite app_nil_r.
      - assert (length (cw L t) <= 10)%nat by (apply (f_equal (@length bool)) in Ev; rewrite app_length in Ev; lia).
        unfold v. rewrite <- lsb_firstn by lia.
        rewrite (lsb_firstn _ (Z.to_nat nb)) by lia. rewrite E, firstn_firstn. f_equal. lia. }
    assert (t = s) as ->; [|lia].
    eapply (cw_prefix L HL HK t s (skipn (length (cw L t)) w)); [apply D|assumption|].
    unfold cw at 1. rewrite Ep at 1. symmetry. apply firstn_skipn.
  - change (Z.of_nat (length L)) with (len L) in N.
    destruct (in_dec (list_eq_dec bool_dec) v labs) as [Hi|Hni].
    + apply In_nth_error in Hi. destruct Hi as [k Hk].
      rewrite (iv_look_node _ _ _ _ _ _ I k v Lv Hk) in Hpos. lia.
    + rewrite (iv_look_none _ _ _ _ _ _ I v Lv Hni N). reflexivity.
Qed.
(** enough bits for the symbol at the head of the stream? *)
Definition enough (bb nb : Z) : T bool :=
  let temp := look_at h bb in
  if temp >=? 0 then tret (negb (Z.shiftr temp 9 =? 0) && (nb >=? Z.shiftr temp 9))
  else if nb >? TINFL_FAST_LOOKUP_BITS then
    tbind (tlift (walk_some 16 h bb nb temp TINFL_FAST_LOOKUP_BITS)) (fun t => tret (t >=? 0))
  else tret false.
Lemma enough_yes bb nb x : l <= nb -> lsb_bits (Z.to_nat l) bb = w -> enough bb nb x = RDone true x.
Proof.
  intros Hnb E. pose proof l_pos. unfold enough.
  destruct (Z_le_gt_dec l 10) as [H10|H10].
  - rewrite (look_short bb H10 E). destruct Hs as [Hr _].
    replace (l * 512 + s >=? 0) with true by lia.
    replace (Z.shiftr (l * 512 + s) 9) with l.
    2:{ rewrite Z.shiftr_div_pow2 by lia. change (2 ^ 9) with 512.
        rewrite Z.add_comm, Z.div_add by lia. rewrite Z.div_small by lia. lia. }
    replace (l =? 0) with false by lia. replace (nb >=? l) with true by lia. reflexivity.
  - pose proof w_length as Wl.
    assert (lsb_bits 10 bb = firstn 10 w) as E10 by (rewrite <- E; apply lsb_firstn; lia).
    destruct (look_long bb ltac:(lia) E10) as (labs & k & I & H288 & Hk & El).
    rewrite El. replace (-1 - 2 * Z.of_nat k >=? 0) with false by lia.
    change TINFL_FAST_LOOKUP_BITS with 10. replace (nb >? 10) with true by lia.
    replace 10 with (Z.of_nat (length (firstn 10 w))) by (rewrite firstn_length; lia).
    rewrite (walk_some_enough labs bb nb I H288 E Hnb (skipn 10 w)); auto.
    + unfold tbind, tlift, tret. cbn [res_bind]. f_equal. destruct Hs. lia.
    + symmetry. apply firstn_skipn.
    + intros Z. apply (f_equal (@length bool)) in Z. rewrite skipn_length in Z. cbn in Z. lia.
    + rewrite skipn_length. lia.
Qed.
Lemma enough_no bb nb x : 0 <= nb < l -> lsb_bits (Z.to_nat nb) bb = firstn (Z.to_nat nb) w ->
  enough bb nb x = RDone false x.
Proof.
  intros Hnb E. pose proof l_pos. unfold enough. pose proof w_length as Wl.
  destruct (look_at h bb >=? 0) eqn:Ep.
  - rewrite look_few by (auto; lia). reflexivity.
  - change TINFL_FAST_LOOKUP_BITS with 10. destruct (nb >? 10) eqn:En; [|reflexivity].
    assert (lsb_bits 10 bb = firstn 10 w) as E10.
    { rewrite (lsb_firstn 10 (Z.to_nat nb)) by lia. rewrite E, firstn_firstn. f_equal. lia. }
    destruct (look_long bb ltac:(lia) E10) as (labs & k & I & H288 & Hk & El).
    rewrite El.
    assert (length (firstn 10 w) = 10%nat) as L10 by (rewrite firstn_length; lia).
    destruct (walk_some_few labs bb nb I H288 Hnb E (skipn 10 (firstn (Z.to_nat nb) w)) (firstn 10 w) k 16)
      as (t & Et & Ht); auto.
    + rewrite <- (firstn_skipn 10 (firstn (Z.to_nat nb) w)) at 1. f_equal. rewrite firstn_firstn. f_equal. lia.
    + intros Z. apply (f_equal (@length bool)) in Z. rewrite skipn_length, firstn_length in Z. cbn in Z. lia.
    + rewrite skipn_length, firstn_length. lia.
    + rewrite L10 in Et. change (Z.of_nat 10) with 10 in Et.
      rewrite Et. unfold tbind, tlift, tret. cbn [res_bind]. f_equal. lia.
Qed.
Lemma fast_entry_ok F x rest d c : at_bits F x (w ++ rest) d c -> l <= ti_nb x ->
  exists e x', fast_entry h x = RDone e x' /\ at_bits F x' rest d c /\ ti_nb x' = ti_nb x - l /\
               ti_in x' = ti_in x /\ 0 <= e /\ Z.land e 511 = s.
Proof.
  intros A N. pose proof l_pos as Lp. pose proof w_length as Wl.
  unfold fast_entry, tbind at 1. cbn [bit_buf res_bind].
  destruct (drop_bits_ok w rest F x d c A ltac:(lia)) as (Ew & x2 & E2 & A2 & N2 & I2).
  rewrite Wl in Ew. destruct (huff_entry_ok (ti_bb x) Ew) as (e & Ee & He & Hm & Hneg).
  unfold tbind at 1. rewrite Ee. cbn [tlift res_bind fst snd].
  unfold tbind. replace l with (Z.of_nat (length w)) in * by lia. rewrite E2. cbn [res_bind].
  exists e, x2. unfold tret. auto 10.
Qed.
Variables (Out : bytes) (K : Z -> Z) (f : nat).
Hypothesis Hf : (2 <= f)%nat.
Local Notation st := (st Out K).
Local Notation leads := (leads Out K).
Local Notation reads := (reads Out K).
Lemma huff_fill_unfold turns : huff_fill (S turns) f h =
  tbind bit_buf (fun bb => tbind num_bits (fun nb => tbind (enough bb nb) (fun e : bool =>
    if e then tret tt
    else tbind (get_byte f) (fun c => tbind (add_bits c 8) (fun _ => tbind num_bits (fun nb' =>
      if nb' <? 15 then huff_fill turns f h else tret tt)))))).
Proof. reflexivity. Qed.
Lemma ahead_bits F x rest d c n : at_bits F x (w ++ rest) d c -> (n <= Z.to_nat (ti_nb x))%nat -> (n <= Z.to_nat l)%nat ->
  lsb_bits n (ti_bb x) = firstn n w.
Proof.
  intros ((Hn & _) & E & _) H1 H2. unfold ahead in E.
  apply (f_equal (firstn n)) in E. rewrite !firstn_app in E. rewrite lsb_length, w_length in E.
  replace (n - Z.to_nat (ti_nb x))%nat with O in E by lia.
  replace (n - Z.to_nat l)%nat with O in E by lia. cbn [firstn] in E.
  rewrite !app_nil_r in E. rewrite <- E. apply lsb_firstn. lia.
Qed.
Lemma huff_fill_ok rest out : forall turns q F x, st q F x (w ++ rest) out -> (1 <= turns)%nat ->
  ti_nb x < 15 -> 15 <= 8 * Z.of_nat turns + ti_nb x ->
  leads (fun q' F' _ x' => st q' F' x' (w ++ rest) out /\ l <= ti_nb x') q F (huff_fill turns f h x).
Proof.
  pose proof l_pos as Lp. pose proof w_length as Wl.
  induction turns as [|turns IH]; intros q F x H H1 Hx Ht; [lia|].
  rewrite huff_fill_unfold. unfold tbind at 1. cbn [bit_buf res_bind].
  unfold tbind at 1. cbn [num_bits res_bind]. unfold tbind at 1.
  assert (0 <= ti_nb x) as N0 by (destruct H as ((? & _) & _); lia).
  pose proof (at_st _ _ _ _ _ _ _ H) as A.
  destruct (Z_le_gt_dec l (ti_nb x)) as [Hl|Hl].
  - rewrite enough_yes; [|assumption|].
    2:{ rewrite (ahead_bits F x rest _ _ _ A) by lia. rewrite <- Wl. apply firstn_all. }
    cbn [res_bind]. constructor. auto.
  - rewrite enough_no; [|lia|].
    2:{ rewrite (ahead_bits F x rest _ _ _ A) by lia. reflexivity. }
    cbn [res_bind]. eapply load_bind; eauto; [lia| |].
    { rewrite len_app. unfold len. lia. }
    intros q1 F1 x1 A1 N1. unfold tbind at 1. cbn [num_bits res_bind].
    destruct (ti_nb x1 <? 15) eqn:E15.
    + apply IH; auto; lia.
    + constructor. split; [assumption|lia].
Qed.
Lemma huff_decode_ok rest : reads (huff_decode f h) (w ++ rest) s rest.
Proof.
  pose proof l_pos as Lp. pose proof w_length as Wl.
  intros q F x out HK0 H. unfold huff_decode, tbind at 1. cbn [num_bits res_bind].
  assert (0 <= ti_nb x) as N0 by (destruct H as ((? & _) & _); lia).
  apply (leads_bind Out K (fun q' F' _ x1 => st q' F' x1 (w ++ rest) out /\ l <= ti_nb x1)).
  { destruct (ti_nb x <? 15) eqn:E15; [|constructor; split; [assumption|lia]].
    destruct (ti_in x) as [|a [|b t]] eqn:Ei.
    1,2: apply huff_fill_ok; auto; lia.
    destruct (load_now 0 F x (w ++ rest) _ _ (at_st _ _ _ _ _ _ _ H) ltac:(lia) ltac:(congruence)) as (y1 & F1 & B1 & M1).
    assert (ti_in y1 = b :: t) as Ei1.
    { unfold load, tbind in F1. rewrite (get_byte_ok 0 x _ _ Ei) in F1. cbn [res_bind] in F1.
      unfold add_bits in F1. destruct (_ && _) in F1; [|discriminate]. injection F1 as <-. reflexivity. }
    destruct (load_now 0 F y1 (w ++ rest) _ _ B1 ltac:(lia) ltac:(congruence)) as (y2 & F2 & B2 & M2).
    match goal with |- leads _ _ _ ?m => assert (m = RDone tt y2) as -> end.
    { unfold load, tbind in F1, F2. rewrite (get_byte_ok 0 x _ _ Ei) in F1. rewrite (get_byte_ok 0 y1 _ _ Ei1) in F2.
      cbn [res_bind] in F1, F2. unfold tbind. unfold add_bits at 1. unfold add_bits at 1 in F1.
      cbn [set_in ti_nb] in *. destruct (_ && _) in F1 |- *; [|discriminate]. injection F1 as <-. cbn [res_bind].
      rewrite <- F2. reflexivity. }
    constructor. split; [eapply st_at; eauto; apply H|lia]. }
  clear H N0. intros q1 F1 [] x1 [H1 N1]. unfold tbind at 1. cbn [bit_buf res_bind].
  destruct (drop_bits_ok w rest F1 x1 _ _ (at_st _ _ _ _ _ _ _ H1) ltac:(lia)) as (Ew & x2 & E2 & A2 & _).
  rewrite Wl in Ew. destruct (huff_entry_ok (ti_bb x1) Ew) as (e & Ee & He & Hm & Hneg).
  unfold tbind at 1. rewrite Ee. cbn [tlift res_bind fst snd].
  unfold tbind. replace l with (Z.of_nat (length w)) by lia. rewrite E2. cbn [res_bind].
  unfold tret. constructor. split; [|eapply st_at; eauto].
  destruct (look_at h (ti_bb x1) >=? 0) eqn:El; [assumption|]. apply Hneg. lia.
Qed.
End Sym.
