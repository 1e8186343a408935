(** The functions of LenientFacts.v decide the relations of LenientSpec.v. *)
From Coq Require Import String ZArith List Bool Lia.
From Verif Require Import Base Stream BaseFacts Dtype Values Spec ValuesFacts PropValues Header HeaderFacts ParserInv ParserRel LenientSpec LenientFacts.
Import ListNotations.
Open Scope Z_scope.

(** ** Blanks *)
Lemma space_char c : is_space c = true <-> blank_char c.
Proof. unfold is_space, blank_char. lia. Qed.
Lemma space_dark c : is_space c = false <-> ~ blank_char c.
Proof. unfold is_space, blank_char. lia. Qed.
Lemma drop_spaces_split l : exists w, l = w ++ drop_spaces l /\ blank w /\ (drop_spaces l = [] \/ dark (drop_spaces l)).
Proof.
  induction l as [|c l (w & E & B & D)]; [exists []; split; [reflexivity|split; [constructor|now left]]|]. cbn [drop_spaces].
  destruct (is_space c) eqn:ES.
  - exists (c :: w). split; [cbn [app]; now f_equal|]. split; [constructor; [now apply space_char|exact B]|exact D].
  - exists []. split; [reflexivity|]. split; [constructor|]. right. exists c, l. split; [reflexivity|now apply space_dark].
Qed.
Lemma drop_blank w r : blank w -> drop_spaces (w ++ r) = drop_spaces r.
Proof.
  intros B. induction B as [|c w Hc _ IH]; [reflexivity|]. cbn [app drop_spaces].
  assert (is_space c = true) as -> by now apply space_char. exact IH.
Qed.
Lemma drop_dark r : dark r -> drop_spaces r = r.
Proof. intros (c & t & -> & Hc). cbn [drop_spaces]. apply space_dark in Hc. now rewrite Hc. Qed.
Lemma ws_some o r : f_ws o = Some r <-> exists w, o = Some (w ++ r) /\ blank w /\ dark r.
Proof.
  split.
  - destruct o as [l|]; [|discriminate]. cbn [f_ws]. destruct (drop_spaces_split l) as (w & E & B & D).
    destruct (drop_spaces l) as [|c t]; [discriminate|]. intros [= <-]. exists w. split; [now f_equal|]. split; [exact B|].
    destruct D as [D|D]; [discriminate|exact D].
  - intros (w & -> & B & D). cbn [f_ws]. rewrite drop_blank, (drop_dark r D) by exact B. destruct D as (c & t & -> & _). reflexivity.
Qed.
Lemma ws_none o : f_ws o = None <-> o = None \/ exists w, o = Some w /\ blank w.
Proof.
  split.
  - destruct o as [l|]; [|now left]. cbn [f_ws]. destruct (drop_spaces_split l) as (w & E & B & D).
    destruct (drop_spaces l) as [|c t] eqn:ED; [|discriminate]. intros _. right. exists l. split; [reflexivity|]. rewrite E, app_nil_r. exact B.
  - intros [->|(w & -> & B)]; [reflexivity|]. cbn [f_ws]. rewrite <- (app_nil_r w), drop_blank by exact B. reflexivity.
Qed.
Lemma char_some o r : f_char o = Some r <-> exists x, o = Some (x :: r).
Proof.
  split.
  - destruct o as [[|x l]|]; try discriminate. intros [= <-]. now exists x.
  - intros [x ->]. reflexivity.
Qed.
Lemma char_none o : f_char o = None <-> o = None \/ o = Some [].
Proof.
  split.
  - destruct o as [[|x l]|]; auto. discriminate.
  - intros [->| ->]; reflexivity.
Qed.

(** ** Tokens *)
Lemma take_until_spec delim l : forall n a b e, 0 <= n -> take_until n delim l = (a, b, e) ->
  l = a ++ b /\ ~ In delim a /\ len a <= n /\ (e = true <-> b = []) /\ (e = false -> exists q r, b = q :: r /\ (q = delim \/ len a = n)).
Proof.
  induction l as [|c l IH]; intros n a b e Hn; cbn [take_until].
  - intros [= <- <- <-]. split; [reflexivity|]. split; [intros []|]. split; [rewrite len_nil; lia|]. split; [split; reflexivity|discriminate].
  - destruct (n <=? 0) eqn:E0.
    { intros [= <- <- <-]. split; [reflexivity|]. split; [intros []|]. split; [rewrite len_nil; lia|]. split; [split; discriminate|].
      intros _. exists c, l. split; [reflexivity|]. right. rewrite len_nil. lia. }
    destruct (c =? delim) eqn:EC.
    { intros [= <- <- <-]. split; [reflexivity|]. split; [intros []|]. split; [rewrite len_nil; lia|]. split; [split; discriminate|].
      intros _. exists c, l. split; [reflexivity|]. left. lia. }
    destruct (take_until (n - 1) delim l) as [[a' b'] e'] eqn:ET. intros [= <- <- <-].
    destruct (IH (n - 1) a' b' e' ltac:(lia) ET) as (H1 & H2 & H3 & H4 & H5).
    split; [cbn [app]; now f_equal|]. split; [intros [HX|HX]; [lia|contradiction]|]. split; [rewrite len_cons; lia|]. split; [exact H4|].
    intros He. destruct (H5 He) as (q & r & Hq & HX). exists q, r. split; [exact Hq|]. rewrite len_cons. lia.
Qed.
Lemma take_until_at delim q r t : forall n, ~ In delim t -> (q = delim /\ len t <= n) \/ len t = n ->
  take_until n delim (t ++ q :: r) = (t, q :: r, false).
Proof.
  induction t as [|c t IH]; intros n HN HQ; cbn [app take_until].
  - rewrite len_nil in HQ. destruct (n <=? 0) eqn:E0; [reflexivity|]. assert (q =? delim = true) as -> by lia. reflexivity.
  - rewrite len_cons in HQ. pose proof (len_nonneg _ t).
    assert (n <=? 0 = false) as -> by lia. assert (c =? delim = false) as -> by (apply Z.eqb_neq; intros ->; apply HN; now left).
    rewrite IH; [reflexivity|intros HX; apply HN; now right|lia].
Qed.
Lemma take_until_all delim t : forall n, ~ In delim t -> len t <= n -> take_until n delim t = (t, [], true).
Proof.
  induction t as [|c t IH]; intros n HN HQ; cbn [take_until]; [reflexivity|]. rewrite len_cons in HQ. pose proof (len_nonneg _ t).
  assert (n <=? 0 = false) as -> by lia. assert (c =? delim = false) as -> by (apply Z.eqb_neq; intros ->; apply HN; now left).
  rewrite IH; [reflexivity|intros HX; apply HN; now right|lia].
Qed.
Lemma tok_some delim o t b : f_tok delim o = (t, Some b) <-> exists q r, b = q :: r /\ o = Some (t ++ q :: r) /\ token_read delim t q.
Proof.
  split.
  - destruct o as [[|c l]|]; try discriminate. cbn [f_tok]. destruct (c =? delim) eqn:EC.
    + intros [= <- <-]. exists c, l. split; [reflexivity|]. split; [reflexivity|]. split; [intros []|]. left. rewrite len_nil. lia.
    + destruct (take_until 65535 delim (c :: l)) as [[a b'] e] eqn:ET. apply take_until_spec in ET; [|lia].
      destruct ET as (H1 & H2 & H3 & H4 & H5). destruct e; [discriminate|]. intros [= <- <-].
      destruct (H5 eq_refl) as (q & r & -> & HX). exists q, r. split; [reflexivity|]. split; [now f_equal|]. split; [exact H2|]. intuition.
  - intros (q & r & -> & -> & HN & HQ). destruct t as [|c t].
    + cbn [app f_tok]. rewrite len_nil in HQ. assert (q =? delim = true) as -> by lia. reflexivity.
    + cbn [app f_tok]. assert (c =? delim = false) as -> by (apply Z.eqb_neq; intros ->; apply HN; now left).
      change (c :: t ++ q :: r) with ((c :: t) ++ q :: r). now rewrite take_until_at.
Qed.
Lemma tok_none delim o t : f_tok delim o = (t, None) <->
  (o = None /\ t = []) \/ (o = Some t /\ ~ In delim t /\ len t <= 65535).
Proof.
  split.
  - destruct o as [[|c l]|]; cbn [f_tok].
    + intros [= <-]. right. split; [reflexivity|]. split; [intros []|]. rewrite len_nil. lia.
    + destruct (c =? delim) eqn:EC; [discriminate|].
      destruct (take_until 65535 delim (c :: l)) as [[a b'] e] eqn:ET. apply take_until_spec in ET; [|lia].
      destruct ET as (H1 & H2 & H3 & H4 & H5). destruct e; [|discriminate]. intros [= <-]. right.
      rewrite (proj1 H4 eq_refl), app_nil_r in H1. subst a. auto.
    + intros [= <-]. now left.
  - intros [[-> ->]|(-> & HN & HL)]; [reflexivity|]. destruct t as [|c t]; [reflexivity|]. cbn [f_tok].
    assert (c =? delim = false) as -> by (apply Z.eqb_neq; intros ->; apply HN; now left). now rewrite take_until_all.
Qed.
Lemma string_some o t r : f_string o = (t, Some r) <-> exists x q, o = Some (x :: t ++ q :: r) /\ token_read 39 t q.
Proof.
  unfold f_string. split.
  - destruct (f_tok 39 (f_char o)) as [t' o1] eqn:ET. intros [= <- H]. apply char_some in H. destruct H as [q ->].
    apply tok_some in ET. destruct ET as (q' & r' & [= <- <-] & H & HT). apply char_some in H. destruct H as [x ->]. eauto.
  - intros (x & q & -> & HT).
    assert (f_tok 39 (f_char (Some (x :: t ++ q :: r))) = (t, Some (q :: r))) as -> by (apply tok_some; eauto). reflexivity.
Qed.
Lemma string_none o t : f_string o = (t, None) <->
  (f_char o = None /\ t = []) \/ (exists x, o = Some (x :: t) /\ ~ In 39 t /\ len t <= 65535).
Proof.
  unfold f_string. split.
  - destruct (f_tok 39 (f_char o)) as [t' o1] eqn:ET. intros [= <- H]. apply char_none in H. destruct H as [->| ->].
    + apply tok_none in ET. destruct ET as [[H ->]|(H & HN & HL)]; [now left|]. right. apply char_some in H. destruct H as [x ->]. eauto.
    + apply tok_some in ET. destruct ET as (q & r & ? & _). discriminate.
  - intros [[H ->]|(x & -> & HN & HL)].
    + rewrite H. reflexivity.
    + assert (f_tok 39 (f_char (Some (x :: t))) = (t, None)) as -> by (apply tok_none; auto). reflexivity.
Qed.
Lemma skip_some n o r : 0 <= n -> f_skip n o = Some r <-> exists a, o = Some (a ++ r) /\ len a = n.
Proof.
  intros Hn. unfold f_skip. split.
  - destruct o as [l|]; [|discriminate]. destruct (len l <? n) eqn:E; [discriminate|]. intros [= <-].
    exists (ztake n l). split; [f_equal; symmetry; apply ztake_zdrop|]. rewrite len_ztake. lia.
  - intros (a & -> & Ha). rewrite len_app. pose proof (len_nonneg _ r). destruct (len a + len r <? n) eqn:E; [lia|].
    rewrite zdrop_app_exact by (symmetry; exact Ha). reflexivity.
Qed.

(** ** Numbers *)
Definition lead (t : bytes) : option (Z * bytes) :=
  match drop_spaces t with
  | [] => None
  | c :: u =>
      let body := if (c =? 45) || (c =? 43) then u else c :: u in
      let (ds, r) := span_digits body in
      match ds with [] => None | _ => Some (if c =? 45 then - digits_value ds else digits_value ds, r) end
  end.
Lemma digit_ok c : is_digit c = true <-> digit_char c.
Proof. unfold is_digit, digit_char. lia. Qed.
Lemma span_spec l : forall ds r, span_digits l = (ds, r) <-> l = ds ++ r /\ Forall digit_char ds /\ (forall c r', r = c :: r' -> ~ digit_char c).
Proof.
  induction l as [|c l IH]; intros ds r; cbn [span_digits].
  - split.
    + intros [= <- <-]. split; [reflexivity|]. split; [constructor|]. discriminate.
    + intros (H & _). symmetry in H. apply app_eq_nil in H. destruct H as [-> ->]. reflexivity.
  - destruct (is_digit c) eqn:ED.
    + destruct (span_digits l) as [a b] eqn:ES. destruct (proj1 (IH a b) eq_refl) as (H1 & H2 & H3). split.
      * intros [= <- <-]. split; [cbn [app]; now f_equal|]. split; [constructor; [now apply digit_ok|exact H2]|exact H3].
      * intros (HE & HF & HR). destruct ds as [|x ds].
        -- cbn [app] in HE. subst r. exfalso. apply (HR c l eq_refl). now apply digit_ok.
        -- cbn [app] in HE. injection HE as <- HE. apply Forall_inv_tail in HF.
           assert ((a, b) = (ds, r)) as [= -> ->] by (apply IH; auto). reflexivity.
    + split.
      * intros [= <- <-]. split; [reflexivity|]. split; [constructor|]. intros c' r' [= <- <-]. rewrite <- digit_ok. congruence.
      * intros (HE & HF & HR). destruct ds as [|x ds]; [cbn [app] in HE; now subst r|]. cbn [app] in HE. injection HE as <- HE.
        apply Forall_inv in HF. apply digit_ok in HF. congruence.
Qed.
Lemma digits_decimal ds : digits_value ds = decimal ds.
Proof.
  unfold digits_value. enough (forall a, fold_left (fun a c => 10 * a + (c - 48)) ds a = a * 10 ^ len ds + decimal ds) as H by (rewrite H; lia).
  induction ds as [|c ds IH]; intros a; cbn [fold_left decimal]; [rewrite len_nil; lia|].
  rewrite IH, len_cons. pose proof (len_nonneg _ ds). rewrite Z.add_comm, Z.pow_add_r by lia. lia.
Qed.
Lemma lead_spec t n r : lead t = Some (n, r) <-> begins_with t n r.
Proof.
  unfold lead, begins_with. split.
  - destruct (drop_spaces_split t) as (w & E & B & D). destruct (drop_spaces t) as [|c u]; [discriminate|].
    set (body := if (c =? 45) || (c =? 43) then u else c :: u). destruct (span_digits body) as [ds r'] eqn:ES. apply span_spec in ES.
    destruct ES as (H1 & H2 & H3). destruct ds as [|d0 ds0] eqn:Eds; [discriminate|]. rewrite <- Eds in *. intros HX.
    assert ((if c =? 45 then - digits_value ds else digits_value ds) = n /\ r' = r) as [Hn ->] by (injection HX; intros HX1 HX2; split; [exact HX2|exact HX1]). clear HX.
    rewrite digits_decimal in Hn.
    exists w, (if (c =? 45) || (c =? 43) then [c] else []), ds. split.
    { rewrite E. f_equal. unfold body in H1. destruct ((c =? 45) || (c =? 43)); [cbn [app]; now f_equal|exact H1]. }
    split; [exact B|]. split; [rewrite Eds; discriminate|]. split; [exact H2|]. split; [exact H3|].
    destruct (c =? 45) eqn:E45; cbn [orb].
    { right. assert (c = 45) as -> by lia. split; [reflexivity|lia]. }
    left. split; [|lia]. destruct (c =? 43) eqn:E43; [right; assert (c = 43) as -> by lia; reflexivity|now left].
  - intros (w & sign & ds & -> & B & HN & HF & HR & HS). rewrite drop_blank by exact B.
    destruct ds as [|d0 ds0]; [contradiction|].
    assert (digit_char d0) as Hd0 by exact (Forall_inv HF).
    assert (span_digits (d0 :: ds0 ++ r) = (d0 :: ds0, r)) as ES by (apply span_spec; auto).
    destruct HS as [[[->| ->] ->]|[-> ->]].
    + cbn [app]. rewrite drop_dark by (exists d0, (ds0 ++ r); split; [reflexivity|unfold blank_char, digit_char in *; lia]).
      assert ((d0 =? 45) || (d0 =? 43) = false) as HQ by (unfold digit_char in *; lia). rewrite HQ, ES.
      assert (d0 =? 45 = false) as -> by lia. now rewrite digits_decimal.
    + cbn [app]. rewrite drop_dark by (eexists _, _; split; [reflexivity|unfold blank_char; lia]).
      change (43 =? 45) with false. change (43 =? 43) with true. cbn [orb]. rewrite ES. now rewrite digits_decimal.
    + cbn [app]. rewrite drop_dark by (eexists _, _; split; [reflexivity|unfold blank_char; lia]).
      change (45 =? 45) with true. cbn [orb]. rewrite ES. now rewrite digits_decimal.
Qed.
Lemma decimal_nonneg ds : Forall digit_char ds -> 0 <= decimal ds.
Proof.
  induction 1 as [|c ds Hc _ IH]; cbn [decimal]; [lia|]. unfold digit_char in Hc. pose proof (len_nonneg _ ds).
  assert (0 <= (c - 48) * 10 ^ len ds) by (apply Z.mul_nonneg_nonneg; [lia|apply Z.pow_nonneg; lia]). lia.
Qed.
Lemma lead_drop t : lead (drop_spaces t) = lead t.
Proof.
  unfold lead. assert (drop_spaces (drop_spaces t) = drop_spaces t) as ->; [|reflexivity].
  destruct (drop_spaces_split t) as (w & _ & _ & [->|D]); [reflexivity|now apply drop_dark].
Qed.
Lemma lead_shorter t n r : lead t = Some (n, r) -> (length r < length t)%nat.
Proof.
  rewrite lead_spec. intros (w & sign & ds & -> & _ & HN & _). rewrite !app_length. destruct ds; [contradiction|]. cbn [length]. lia.
Qed.
Lemma dims_same_lead t u l : lead t = lead u -> dims_read t l -> dims_read u l.
Proof.
  intros HL HD. destruct HD as [t n r l HB HA HD|t HN].
  - apply (Dims_more u n r l); auto. apply lead_spec in HB. apply lead_spec. congruence.
  - apply Dims_end. intros (n & r & HB & HA). apply HN. exists n, r. split; [|exact HA]. apply lead_spec. apply lead_spec in HB. congruence.
Qed.
Lemma dims_unique t l1 : dims_read t l1 -> forall l2, dims_read t l2 -> l1 = l2.
Proof.
  induction 1 as [t n r l HB HA HD IH|t HN]; intros l2 H2.
  - destruct H2 as [t n2 r2 l2 HB2 HA2 HD2|t HN]; [|exfalso; apply HN; eauto].
    apply lead_spec in HB, HB2. rewrite HB in HB2. injection HB2 as <- <-. f_equal. now apply IH.
  - destruct H2 as [t n2 r2 l2 HB2 HA2 HD2|]; [exfalso; apply HN; eauto|reflexivity].
Qed.
Lemma extract_lead s t : good s = true -> rest s = t ->
  match lead t with
  | Some (n, r) =>
      if Z.abs n <? 2 ^ 64 then
        exists s', sextract_u64 s = (Some (n mod 2 ^ 64), s') /\ rest s' = r /\ good s' = (match r with [] => false | _ => true end)
      else fst (sextract_u64 s) = None
  | None => fst (sextract_u64 s) = None
  end.
Proof.
  intros G R. unfold lead, sextract_u64. rewrite G, R. destruct (drop_spaces t) as [|c u]; [reflexivity|]. cbv zeta.
  assert (forall body, exists ds r, span_digits body = (ds, r) /\ Forall digit_char ds) as HSp.
  { intros body. destruct (span_digits body) as [ds r] eqn:ES. exists ds, r. split; [reflexivity|]. apply span_spec in ES. tauto. }
  match goal with |- context [span_digits ?b] => destruct (HSp b) as (ds & r & ES & HF) end. rewrite !ES. destruct ds as [|d0 ds]; [reflexivity|]. pose proof (decimal_nonneg _ HF) as HP. rewrite <- digits_decimal in HP.
  set (v := digits_value (d0 :: ds)) in *. clearbody v. unfold max64.
  destruct (Z.abs (if c =? 45 then - v else v) <? 2 ^ 64) eqn:EA.
  - change (2 ^ 64) with 18446744073709551616 in *.
    destruct (v >? 18446744073709551615) eqn:EV; [destruct (c =? 45); lia|].
    assert ((if c =? 45 then - v else v) mod 18446744073709551616 = if c =? 45 then u64 (- v) else v) as ->
      by (destruct (c =? 45); [reflexivity|apply Z.mod_small; lia]).
    eexists. split; [reflexivity|].
    destruct r; cbn [set_eof set_rest rest good eofb failb]; split; try reflexivity. exact G.
  - change (2 ^ 64) with 18446744073709551616 in *.
    destruct (v >? 18446744073709551615) eqn:EV; [reflexivity|destruct (c =? 45); lia].
Qed.
Lemma shape_loop_dims f : forall s t, good s = true -> rest s = t -> (length t < f)%nat -> exists l, shape_loop f s = Ok l /\ dims_read t l.
Proof.
  induction f as [|f IH]; intros s t G R HL; [lia|]. cbn [shape_loop].
  pose proof (extract_lead s t G R) as HX. destruct (lead t) as [[n r]|] eqn:EL.
  2:{ destruct (sextract_u64 s) as [x s1]. cbn [fst] in HX. subst x. exists []. split; [reflexivity|]. apply Dims_end.
      intros (n & r & HB & _). apply lead_spec in HB. congruence. }
  destruct (Z.abs n <? 2 ^ 64) eqn:EA.
  2:{ destruct (sextract_u64 s) as [x s1]. cbn [fst] in HX. subst x. exists []. split; [reflexivity|]. apply Dims_end.
      intros (n' & r' & HB & HA). apply lead_spec in HB. rewrite EL in HB. injection HB as <- <-. lia. }
  destruct HX as (s1 & -> & R1 & G1). pose proof (lead_shorter _ _ _ EL) as HS. apply lead_spec in EL.
  assert (forall s3 u l, shape_loop f s3 = Ok l -> dims_read u l -> u = past_comma r ->
    exists l', (let* r0 := shape_loop f s3 in Ok (n mod 2 ^ 64 :: r0)) = Ok l' /\ dims_read t l') as HGo.
  { intros s3 u l E3 HD ->. rewrite E3. cbn [obind]. eexists. split; [reflexivity|]. apply (Dims_more t n r l); auto. lia. }
  assert (forall s3, good s3 = false -> shape_loop f s3 = Ok []) as HBad.
  { intros s3 HB. apply shape_loop_bad; [exact HB|]. lia. }
  assert (forall u, drop_spaces u = [] -> dims_read u []) as HEnd.
  { intros u HU. apply Dims_end. intros (m & r' & HB & _). apply lead_spec in HB. unfold lead in HB. rewrite HU in HB. discriminate. }
  destruct r as [|c r].
  - unfold speek. rewrite G1. change (-1 =? 44) with false. cbv iota. cbn [obind].
    apply (HGo _ [] []); [apply HBad, good_fail|now apply HEnd|reflexivity].
  - unfold speek. rewrite G1, R1. destruct (c =? 44) eqn:EC.
    + unfold sget. rewrite G1, R1. unfold skip_ws.
      rewrite skip_ws_good by (first [exact G1 | cbn [set_rest rest]; lia]). cbn [set_rest rest]. cbv zeta.
      assert (past_comma (c :: r) = r) as EP by (assert (c = 44) as -> by lia; reflexivity). cbn [length] in HS.
      destruct (drop_spaces r) as [|c' r'] eqn:ED; cbn [obind].
      * apply (HGo _ r []); [apply HBad, good_eof|now apply HEnd|now symmetry].
      * destruct (drop_spaces_split r) as (w & Ew & _). rewrite ED in Ew.
        destruct (IH (set_rest (set_rest s1 r) (c' :: r')) (c' :: r')) as (l & El & HD); [exact G1|reflexivity|rewrite Ew, app_length in HS; lia|].
        apply (HGo _ r l); [exact El| |now symmetry]. apply (dims_same_lead (c' :: r')); [|exact HD]. rewrite <- ED. apply lead_drop.
    + cbn [obind]. destruct (IH s1 (c :: r)) as (l & El & HD); [exact G1|exact R1|cbn [length] in *; lia|].
      apply (HGo _ (c :: r) l); [exact El|exact HD|].
      unfold past_comma. destruct c as [|c|c]; try reflexivity. do 6 (destruct c as [c|c|]; try reflexivity). discriminate.
Qed.
Lemma parse_shape_dims t l : parse_shape t = Ok l <-> dims_read t l.
Proof.
  unfold parse_shape. destruct (shape_loop_dims (S (length t)) (open_str t) t eq_refl eq_refl ltac:(lia)) as (l' & E & HD). rewrite E. split.
  - intros [= <-]. exact HD.
  - intros H. f_equal. eapply dims_unique; eauto.
Qed.
Lemma stoi_lead t : stoi t = match lead t with
  | None => Throw InvalidArgument
  | Some (n, _) => if (n <? -2147483648) || (n >? 2147483647) then Throw OutOfRange else Ok n
  end.
Proof.
  unfold stoi, lead. destruct (drop_spaces t) as [|c u]; [reflexivity|]. destruct (c =? 45) eqn:E45; cbn [orb].
  - destruct (span_digits u) as [[|d0 ds] r]; reflexivity.
  - destruct (c =? 43) eqn:E43.
    + destruct (span_digits u) as [[|d0 ds] r]; reflexivity.
    + destruct (span_digits (c :: u)) as [[|d0 ds] r]; reflexivity.
Qed.

(** ** The type code *)
Lemma code_same c d e n : f_code c = Ok (d, e, n) <-> code_read c d e n.
Proof.
  split.
  - destruct c as [|x t]; [discriminate|]. cbn [f_code]. destruct (match t with [] => false | c1 :: _ => c1 =? 85 end) eqn:EU.
    + destruct t as [|c1 t]; [discriminate|]. assert (c1 = 85) as -> by lia. change (zdrop 2 (x :: 85 :: t)) with (zdrop 0 t).
      assert (zdrop 0 t = t) as -> by (now destruct t). rewrite stoi_lead. destruct (lead t) as [[m r]|] eqn:EL; [|discriminate].
      destruct ((m <? -2147483648) || (m >? 2147483647)) eqn:EM; [discriminate|]. cbn [obind]. intros [= <- <- <-].
      apply (Code_unicode x t m r); [now apply lead_spec|]. change (2 ^ 31) with 2147483648. lia.
    + assert (~ says_unicode (x :: t)) as HS by (intros (y & u & [= -> ->]); discriminate).
      destruct (fst (from_dtype (x :: t) DTYPE_MAP)) as [d' e'] eqn:EF. intros [= <- <- <-].
      destruct (dfind DTYPE_MAP (x :: t)) as [p|] eqn:ED.
      * destruct (dfind_known (x :: t)) as (dd & big & Hd & Ec); [congruence|]. rewrite Ec in *.
        assert (means_big (host_big (mk_env big false 0)) NATIVE = big) as EB by reflexivity.
        destruct (C01_dtype_strings_round_trip (mk_env big false 0) dd NATIVE) as [_ HC]. specialize (HC Hd). cbv zeta in HC. rewrite EB in HC.
        destruct HC as [_ HC]. rewrite HC in EF. injection EF as <- <-. now apply Code_known.
      * unfold from_dtype in EF. rewrite ED in EF. injection EF as <- <-. apply Code_unknown; [discriminate|exact HS|].
        intros dd big Hd Ec. clear - Hd Ec ED. rewrite Ec in ED. destruct dd, big; try discriminate ED; contradiction.
  - intros [x t m r HB HM|d0 big Hd|c0 HN HS HK].
    + cbn [f_code]. change (85 =? 85) with true. cbv iota. change (zdrop 2 (x :: 85 :: t)) with (zdrop 0 t).
      assert (zdrop 0 t = t) as -> by (now destruct t). rewrite stoi_lead. apply lead_spec in HB. rewrite HB.
      change (2 ^ 31) with 2147483648 in HM. assert ((m <? -2147483648) || (m >? 2147483647) = false) as -> by lia. reflexivity.
    + destruct d0, big; try reflexivity; contradiction.
    + destruct c0 as [|x t]; [contradiction|]. cbn [f_code].
      assert ((match t with [] => false | c1 :: _ => c1 =? 85 end) = false) as ->.
      { destruct t as [|c1 t]; [reflexivity|]. apply Z.eqb_neq. intros ->. apply HS. now exists x, t. }
      unfold from_dtype. destruct (dfind DTYPE_MAP (x :: t)) as [p|] eqn:ED; [|reflexivity].
      destruct (dfind_known (x :: t)) as (dd & big & Hd & Ec); [congruence|]. exfalso. exact (HK dd big Hd Ec).
Qed.
Lemma code_oob c u : f_code c = Undef u -> u = OutOfBounds /\ c = [].
Proof.
  destruct c as [|x t]; [intros [= <-]; auto|]. cbn [f_code].
  destruct (match t with [] => false | c1 :: _ => c1 =? 85 end).
  - rewrite stoi_lead. destruct (lead _) as [[m r]|]; [|discriminate]. destruct (_ || _); discriminate.
  - destruct (fst (from_dtype (x :: t) DTYPE_MAP)). discriminate.
Qed.
Lemma code_not_empty d e n : ~ code_read [] d e n.
Proof. intros H. apply code_same in H. discriminate. Qed.

(** ** One entry *)
Lemma made_cons f fs h h' : made (f :: fs) h h' <-> exists h1, made [f] h h1 /\ made fs h1 h'.
Proof.
  split.
  - intros H. inversion H; subst; eexists; (split; [|eassumption]); econstructor; try eassumption; constructor.
  - intros (h1 & H1 & H2). inversion H1; subst; match goal with H : made [] _ _ |- _ => inversion H; subst end; econstructor; eassumption.
Qed.
Definition f_value (key : bytes) (o2 : option bytes) (h : header_info) : outcome (header_info * field_value * option bytes) :=
  if beq key (str "descr") then
    let (c, o3) := f_string o2 in
    let* y := f_code c in
    let '(d, e, n) := y in Ok (mk_header (Some d) (Some e) (h_fortran h) (h_shape h) (Some n), FDescr c, o3)
  else if beq key (str "fortran_order") then
    let* y := f_bool o2 in Ok (mk_header (h_dtype h) (h_endian h) (Some (fst y)) (h_shape h) (h_maxlen h), FOrder (fst y), snd y)
  else if beq key (str "shape") then
    let* y := f_shape o2 in Ok (mk_header (h_dtype h) (h_endian h) (h_fortran h) (fst y) (h_maxlen h), FShape (fst y), snd y)
  else Throw RuntimeError.
Lemma entry_value o h : f_entry o h =
  (let (key, o1) := f_string (f_ws o) in
   let* x := f_value key (f_ws (f_char (f_ws o1))) h in let '(h', f, o3) := x in Ok (h', f, f_ws (f_char o3))).
Proof. reflexivity. Qed.
Lemma ws_char o r : f_ws (f_char o) = Some r <-> exists m w, o = Some (m :: w ++ r) /\ blank w /\ dark r.
Proof.
  rewrite ws_some. split.
  - intros (w & H & B & D). apply char_some in H. destruct H as [m ->]. eauto.
  - intros (m & w & -> & B & D). exists w. split; [reflexivity|auto].
Qed.
Lemma colon_some o r : f_ws (f_char (f_ws o)) = Some r <->
  exists w2 c w3, o = Some (w2 ++ c :: w3 ++ r) /\ blank w2 /\ ~ blank_char c /\ blank w3 /\ dark r.
Proof.
  rewrite ws_char. split.
  - intros (c & w3 & H & B & D). apply ws_some in H. destruct H as (w2 & -> & B2 & (c' & t & [= <- <-] & HC)). exists w2, c, w3. auto.
  - intros (w2 & c & w3 & -> & B2 & HC & B3 & D). exists c, w3. split; [|auto]. apply ws_some. exists w2. split; [reflexivity|]. split; [exact B2|].
    exists c, (w3 ++ r). auto.
Qed.
Lemma key_some t key r : f_string (f_ws (Some t)) = (key, Some r) <->
  exists w1 q q', t = w1 ++ q :: key ++ q' :: r /\ blank w1 /\ ~ blank_char q /\ token_read 39 key q'.
Proof.
  rewrite string_some. split.
  - intros (q & q' & H & HT). apply ws_some in H. destruct H as (w1 & [= ->] & B & (c & u & [= <- <-] & HC)). exists w1, q, q'. auto.
  - intros (w1 & q & q' & -> & B & HC & HT). exists q, q'. split; [|exact HT]. apply ws_some. exists w1. split; [reflexivity|]. split; [exact B|].
    exists q, (key ++ q' :: r). auto.
Qed.
Lemma bool_some t b r : f_bool (Some t) = Ok (b, Some r) <-> exists val, t = val ++ r /\ value_read val (FOrder b).
Proof.
  split.
  - destruct t as [|c t]; [discriminate|]. cbn [f_bool]. destruct (c =? 84) eqn:E1.
    + intros HX. assert (true = b /\ f_skip 4 (Some (c :: t)) = Some r) as [<- H] by (injection HX; intros HX1 HX2; split; [exact HX2|exact HX1]). clear HX.
      apply skip_some in H; [|lia]. destruct H as (a & [= HA] & HL). exists a. split; [exact HA|].
      assert (c = 84) as -> by lia. destruct a as [|a0 [|a1 [|a2 [|a3 [|a4 a]]]]]; try (rewrite ?len_cons, ?len_nil in HL; lia).
      * injection HA as <- HA. constructor.
      * rewrite !len_cons in HL. pose proof (len_nonneg _ a). lia.
    + destruct (c =? 70) eqn:E2; [|discriminate]. intros HX. assert (false = b /\ f_skip 5 (Some (c :: t)) = Some r) as [<- H] by (injection HX; intros HX1 HX2; split; [exact HX2|exact HX1]). clear HX.
      apply skip_some in H; [|lia]. destruct H as (a & [= HA] & HL). exists a. split; [exact HA|].
      assert (c = 70) as -> by lia. destruct a as [|a0 [|a1 [|a2 [|a3 [|a4 [|a5 a]]]]]]; try (rewrite ?len_cons, ?len_nil in HL; lia).
      * injection HA as <- HA. constructor.
      * rewrite !len_cons in HL. pose proof (len_nonneg _ a). lia.
  - intros (val & -> & HV). inversion HV; subst; cbn [app f_bool].
    + change (84 =? 84) with true. cbv iota. do 2 f_equal. apply skip_some; [lia|]. exists [84; a; b0; c]. split; reflexivity.
    + change (70 =? 84) with false. change (70 =? 70) with true. cbv iota. do 2 f_equal. apply skip_some; [lia|]. exists [70; a; b0; c; d]. split; reflexivity.
Qed.
Lemma shape_some t l r : dark t -> f_shape (Some t) = Ok (l, Some r) <-> exists val, t = val ++ r /\ value_read val (FShape l).
Proof.
  intros HD. unfold f_shape. split.
  - destruct (f_tok 41 (f_char (Some t))) as [a o1] eqn:ET. destruct (parse_shape a) as [l'|?| |?] eqn:EP; cbn [obind]; try discriminate.
    intros [= <- H]. apply char_some in H. destruct H as [q' ->]. apply tok_some in ET. destruct ET as (q1 & r1 & [= <- <-] & H & HT).
    apply char_some in H. destruct H as [q [= ->]]. destruct HD as (? & ? & [= <- <-] & HQ). apply parse_shape_dims in EP.
    exists (q :: a ++ [q']). split; [cbn [app]; now rewrite <- app_assoc|now constructor].
  - intros (val & -> & HV). inversion HV; subst. cbn [app f_char]. rewrite <- app_assoc. cbn [app].
    match goal with H : token_read 41 ?a ?q' |- _ => assert (f_tok 41 (Some (a ++ q' :: r)) = (a, Some (q' :: r))) as -> by (apply tok_some; eauto) end.
    match goal with H : dims_read _ _ |- _ => apply parse_shape_dims in H; rewrite H end. reflexivity.
Qed.
Lemma descr_some t c r : dark t -> c <> [] -> f_string (Some t) = (c, Some r) <-> exists val, t = val ++ r /\ value_read val (FDescr c).
Proof.
  intros HD HC. rewrite string_some. split.
  - intros (q & q' & [= ->] & HT). destruct HD as (? & ? & [= <- <-] & HQ). exists (q :: c ++ [q']). split; [cbn [app]; now rewrite <- app_assoc|now constructor].
  - intros (val & -> & HV). inversion HV; subst. exists q, q'. split; [cbn [app]; now rewrite <- app_assoc|assumption].
Qed.
Lemma value_some key t h h' f r : dark t ->
  f_value key (Some t) h = Ok (h', f, Some r) <-> key = key_text f /\ made [f] h h' /\ exists val, t = val ++ r /\ value_read val f.
Proof.
  intros HD. unfold f_value. split.
  - destruct (beq key (str "descr")) eqn:E1.
    { apply beq_eq in E1. subst key. destruct (f_string (Some t)) as [c o3] eqn:ES. destruct (f_code c) as [[[d e] n]|?| |?] eqn:EC; cbn [obind]; try discriminate.
      intros [= <- <- ->]. apply code_same in EC. split; [reflexivity|]. split; [econstructor; [exact EC|constructor]|].
      apply descr_some; [exact HD|intros ->; exact (code_not_empty _ _ _ EC)|exact ES]. }
    destruct (beq key (str "fortran_order")) eqn:E2.
    { apply beq_eq in E2. subst key. destruct (f_bool (Some t)) as [[b o3]|?| |?] eqn:EB; cbn [obind fst snd]; try discriminate.
      intros [= <- <- ->]. split; [reflexivity|]. split; [constructor; constructor|]. now apply bool_some. }
    destruct (beq key (str "shape")) eqn:E3; [|discriminate]. apply beq_eq in E3. subst key.
    destruct (f_shape (Some t)) as [[l o3]|?| |?] eqn:EB; cbn [obind fst snd]; try discriminate.
    intros [= <- <- ->]. split; [reflexivity|]. split; [constructor; constructor|]. now apply shape_some.
  - intros (-> & HM & HV). destruct f as [c|b|l]; cbn [key_text].
    + change (beq (str "descr") (str "descr")) with true. cbv iota.
      inversion HM; subst. match goal with H : code_read _ _ _ _ |- _ => rename H into HCR end.
      apply descr_some in HV; [|exact HD|intros ->; exact (code_not_empty _ _ _ HCR)]. rewrite HV. apply code_same in HCR. rewrite HCR. cbn [obind].
      match goal with H : made [] _ _ |- _ => inversion H; subst end. reflexivity.
    + change (beq (str "fortran_order") (str "descr")) with false. change (beq (str "fortran_order") (str "fortran_order")) with true. cbv iota.
      apply bool_some in HV. rewrite HV. cbn [obind fst snd]. inversion HM; subst. match goal with H : made [] _ _ |- _ => inversion H; subst end. reflexivity.
    + change (beq (str "shape") (str "descr")) with false. change (beq (str "shape") (str "fortran_order")) with false. change (beq (str "shape") (str "shape")) with true. cbv iota.
      apply shape_some in HV; [|exact HD]. rewrite HV. cbn [obind fst snd]. inversion HM; subst. match goal with H : made [] _ _ |- _ => inversion H; subst end. reflexivity.
Qed.
Lemma value_none key h : f_value key None h = Undef OutOfBounds /\ key = str "descr" \/
  (exists h' f, f_value key None h = Ok (h', f, None)) \/ f_value key None h = Throw RuntimeError.
Proof.
  unfold f_value. destruct (beq key (str "descr")) eqn:E1; [left; split; [reflexivity|now apply beq_eq]|].
  destruct (beq key (str "fortran_order")); [right; right; reflexivity|].
  destruct (beq key (str "shape")); [|right; right; reflexivity]. right. left. cbn. eauto.
Qed.
Lemma value_undef key t h u : dark t ->
  f_value key (Some t) h = Undef u <-> u = OutOfBounds /\ key = str "descr" /\ exists q t4, t = q :: t4 /\ (t4 = [] \/ exists r, t4 = 39 :: r).
Proof.
  intros (q & t4 & -> & HQ). unfold f_value. split.
  - destruct (beq key (str "descr")) eqn:E1.
    { apply beq_eq in E1. match goal with |- context [f_string ?o] => destruct (f_string o) as [c o3] eqn:ES end. destruct (f_code c) as [[[d e] n]|?| |u'] eqn:EC; cbn [obind]; try discriminate.
      intros [= ->]. apply code_oob in EC. destruct EC as [-> ->]. split; [reflexivity|]. split; [exact E1|]. exists q, t4. split; [reflexivity|].
      destruct o3 as [r3|].
      - apply string_some in ES. destruct ES as (x & q' & [= <- ->] & _ & [[-> _]|HX]); [right; now exists r3|rewrite len_nil in HX; lia].
      - apply string_none in ES. destruct ES as [[HX _]|(x & [= <- ->] & _)]; [discriminate|now left]. }
    destruct (beq key (str "fortran_order")).
    { cbn [f_bool]. destruct (q =? 84); [discriminate|]. destruct (q =? 70); discriminate. }
    destruct (beq key (str "shape")); [|discriminate]. unfold f_shape. match goal with |- context [f_tok 41 ?o] => destruct (f_tok 41 o) as [a o1] end.
    destruct (parse_shape_total a) as [l ->]. discriminate.
  - intros (-> & -> & q1 & t5 & [= <- <-] & HX). change (beq (str "descr") (str "descr")) with true. cbv iota.
    destruct HX as [->|[r ->]]; reflexivity.
Qed.
(** ** Entries *)
Lemma entry_some t h h' f r : f_entry (Some t) h = Ok (h', f, Some r) <-> entry_read t f r /\ made [f] h h'.
Proof.
  rewrite entry_value. split.
  - destruct (f_string (f_ws (Some t))) as [key o1] eqn:EK. destruct (f_ws (f_char (f_ws o1))) as [t2|] eqn:EC.
    2:{ destruct (value_none key h) as [[-> _]|[(h1 & f1 & ->)| ->]]; cbn; discriminate. }
    apply colon_some in EC. destruct EC as (w2 & c & w3 & -> & B2 & HC & B3 & D).
    apply key_some in EK. destruct EK as (w1 & q & q' & -> & B1 & HQ & HT).
    destruct (f_value key (Some t2) h) as [[[h1 f1] o3]|?| |?] eqn:EV; cbn [obind]; try discriminate.
    intros [= -> -> HE]. apply ws_char in HE. destruct HE as (m & w4 & -> & B4 & D4).
    apply value_some in EV; [|exact D]. destruct EV as (-> & HM & val & -> & HV). split; [|exact HM].
    assert (q' = 39) as -> by (destruct HT as [_ [[-> _]|HL]]; [reflexivity|destruct f; vm_compute in HL; discriminate]).
    now constructor.
  - intros [HE HM]. inversion HE; subst.
    match goal with |- context [f_string ?o] => assert (f_string o = (key_text f, Some (w2 ++ c :: w3 ++ val ++ m :: w4 ++ r))) as -> end.
    { apply key_some. exists w1, q, 39. split; [reflexivity|]. split; [assumption|]. split; [assumption|]. split.
      - destruct f; cbn; intuition discriminate.
      - left. split; [reflexivity|]. destruct f; vm_compute; discriminate. }
    assert (dark (val ++ m :: w4 ++ r)) as HD.
    { match goal with H : value_read _ _ |- _ => inversion H; subst end; cbn [app]; eexists _, _; (split; [reflexivity|]); try assumption; unfold blank_char; lia. }
    assert (f_ws (f_char (f_ws (Some (w2 ++ c :: w3 ++ val ++ m :: w4 ++ r)))) = Some (val ++ m :: w4 ++ r)) as ->.
    { apply colon_some. exists w2, c, w3. auto. }
    assert (f_value (key_text f) (Some (val ++ m :: w4 ++ r)) h = Ok (h', f, Some (m :: w4 ++ r))) as ->.
    { apply value_some; [exact HD|]. split; [reflexivity|]. split; [exact HM|]. eauto. }
    cbn [obind]. do 2 f_equal. apply ws_char. eauto.
Qed.
Lemma entry_nowhere h : f_entry None h = Throw RuntimeError.
Proof. reflexivity. Qed.

Lemma entry_undef t h u : f_entry (Some t) h = Undef u <-> u = OutOfBounds /\ no_code t.
Proof.
  rewrite entry_value. split.
  - destruct (f_string (f_ws (Some t))) as [key o1] eqn:EK. destruct (f_ws (f_char (f_ws o1))) as [t2|] eqn:EC.
    + apply colon_some in EC. destruct EC as (w2 & c & w3 & -> & B2 & HC & B3 & D).
      apply key_some in EK. destruct EK as (w1 & q & q' & -> & B1 & HQ & HT).
      destruct (f_value key (Some t2) h) as [[[h1 f1] o3]|?| |u'] eqn:EV; cbn [obind]; try discriminate. intros [= ->].
      apply value_undef in EV; [|exact D]. destruct EV as (-> & -> & q2 & t4 & -> & H4). split; [reflexivity|].
      assert (q' = 39) as -> by (destruct HT as [_ [[-> _]|HL]]; [reflexivity|vm_compute in HL; discriminate]).
      exists w1, q, (39 :: w2 ++ c :: w3 ++ q2 :: t4). split; [reflexivity|]. split; [exact B1|]. split; [exact HQ|]. right.
      exists w2, (c :: w3 ++ q2 :: t4). split; [reflexivity|]. split; [exact B2|]. right. exists c, w3, (q2 :: t4). split; [reflexivity|].
      split; [exact HC|]. split; [exact B3|]. right. exists q2, t4. split; [reflexivity|]. split; [|exact H4].
      destruct D as (? & ? & [= <- <-] & HD). exact HD.
    + destruct (value_none key h) as [[-> ->]|[(h1 & f1 & ->)| ->]]; cbn [obind]; try discriminate. intros [= <-]. split; [reflexivity|].
      destruct o1 as [r1|].
      * apply key_some in EK. destruct EK as (w1 & q & q' & -> & B1 & HQ & HT).
        assert (q' = 39) as -> by (destruct HT as [_ [[-> _]|HL]]; [reflexivity|vm_compute in HL; discriminate]).
        exists w1, q, (39 :: r1). split; [reflexivity|]. split; [exact B1|]. split; [exact HQ|]. right.
        apply ws_none in EC. destruct EC as [EC|(w3 & EC & B3)].
        -- apply char_none in EC. destruct EC as [EC|EC].
           ++ apply ws_none in EC. destruct EC as [EC|(w2 & [= ->] & B2)]; [discriminate|]. exists w2, []. split; [now rewrite app_nil_r|auto].
           ++ apply ws_some in EC. destruct EC as (? & _ & _ & (? & ? & ? & _)). discriminate.
        -- apply char_some in EC. destruct EC as [c EC]. apply ws_some in EC. destruct EC as (w2 & [= ->] & B2 & (? & ? & [= <- <-] & HC)).
           exists w2, (c :: w3). split; [reflexivity|]. split; [exact B2|]. right. exists c, w3, []. split; [now rewrite app_nil_r|auto].
      * apply string_none in EK. destruct EK as [[_ EK]|(q & EK & _)]; [discriminate|].
        apply ws_some in EK. destruct EK as (w1 & [= ->] & B1 & (? & ? & [= <- <-] & HQ)). exists w1, q, []. split; [now rewrite app_nil_r|auto].
  - intros (-> & w1 & q & t1 & -> & B1 & HQ & H).
    assert (~ In 39 (str "descr")) as HN by (cbn; intuition discriminate).
    assert (forall r, f_ws (f_char (f_ws (Some r))) = None -> f_string (f_ws (Some (w1 ++ q :: str "descr" ++ 39 :: r))) = (str "descr", Some r) ->
      (let (key, o1) := f_string (f_ws (Some (w1 ++ q :: str "descr" ++ 39 :: r))) in
       let* x := f_value key (f_ws (f_char (f_ws o1))) h in let '(h', f, o3) := x in Ok (h', f, f_ws (f_char o3))) = Undef OutOfBounds) as HNone.
    { intros r H1 ->. rewrite H1. reflexivity. }
    assert (forall r, f_string (f_ws (Some (w1 ++ q :: str "descr" ++ 39 :: r))) = (str "descr", Some r)) as HKey.
    { intros r. apply key_some. exists w1, q, 39. split; [reflexivity|]. split; [exact B1|]. split; [exact HQ|]. split; [exact HN|].
      left. split; [reflexivity|]. vm_compute. discriminate. }
    destruct H as [->|(w2 & t2 & -> & B2 & H)].
    { match goal with |- context [f_string ?o] => assert (f_string o = (str "descr", None)) as ->; [|reflexivity] end.
      apply string_none. right. exists q. split; [|split; [exact HN|vm_compute; discriminate]]. apply ws_some. exists w1. rewrite app_nil_r.
      split; [reflexivity|]. split; [exact B1|]. eexists _, _; eauto. }
    destruct H as [->|(c & w3 & t3 & -> & HC & B3 & H)].
    { apply HNone; [|apply HKey]. rewrite app_nil_r. apply ws_none. left. apply char_none. left. apply ws_none. right. eauto. }
    assert (f_ws (Some (w2 ++ c :: w3 ++ t3)) = Some (c :: w3 ++ t3)) as EW.
    { apply ws_some. exists w2. split; [reflexivity|]. split; [exact B2|]. eexists _, _; eauto. }
    destruct H as [->|(q' & t4 & -> & HQ' & H)].
    { apply HNone; [|apply HKey]. apply ws_none. right. exists w3. split; [|exact B3]. apply char_some. exists c. rewrite app_nil_r in *. exact EW. }
    match goal with |- context [f_string ?o] => assert (f_string o = (str "descr", Some (w2 ++ c :: w3 ++ q' :: t4))) as -> by apply HKey end.
    assert (dark (q' :: t4)) as HD by (eexists _, _; eauto).
    assert (f_ws (f_char (f_ws (Some (w2 ++ c :: w3 ++ q' :: t4)))) = Some (q' :: t4)) as -> by (apply colon_some; exists w2, c, w3; auto).
    assert (f_value (str "descr") (Some (q' :: t4)) h = Undef OutOfBounds) as ->; [|reflexivity].
    apply value_undef; [exact HD|]. split; [reflexivity|]. split; [reflexivity|]. eauto.
Qed.
Lemma entry_shorter t f r : entry_read t f r -> (length r < length t)%nat.
Proof. intros H. inversion H; subst. repeat (rewrite app_length; cbn [length]). lia. Qed.
Lemma entries_nowhere n h : f_entries (S n) None h = Throw RuntimeError.
Proof. cbn [f_entries]. now rewrite entry_nowhere. Qed.
Lemma closed_or r : closed r \/ ~ closed r.
Proof.
  destruct r as [|c r]; [right; intros [? ?]; discriminate|]. destruct (Z.eq_dec c 125) as [->|HN]; [left; now exists r|].
  right. intros [? [= -> _]]. contradiction.
Qed.
Lemma entries_step n (t : bytes) h : ~ closed t ->
  f_entries (S n) (Some t) h = let* x := f_entry (Some t) h in let '(h', _, o') := x in f_entries n o' h'.
Proof.
  intros HC. cbn [f_entries]. destruct t as [|c r]; [reflexivity|].
  destruct (Z.eq_dec c 125) as [->|HN]; [exfalso; apply HC; now exists r|].
  destruct c as [|c|c]; try reflexivity. do 7 (destruct c as [c|c|]; try reflexivity). contradiction.
Qed.
Lemma entries_ok n : forall (t : bytes) h h', (length t < n)%nat ->
  f_entries n (Some t) h = Ok h' <-> exists fs r, entries_read t fs r /\ closed r /\ made fs h h'.
Proof.
  induction n as [|n IH]; intros t h h' HL; [lia|]. destruct (closed_or t) as [HC|HC].
  - split.
    + destruct HC as [r ->]. cbn [f_entries]. intros [= <-]. exists [], (125 :: r). split; [constructor|]. split; [now exists r|constructor].
    + intros (fs & r & HE & _ & HM). inversion HE; subst; [|contradiction]. inversion HM; subst. destruct HC as [r' ->]. reflexivity.
  - rewrite entries_step by exact HC. split.
    + destruct (f_entry (Some t) h) as [[[h1 f] o']|?| |?] eqn:EE; cbn [obind]; try discriminate.
      destruct o' as [t'|]; [|destruct n; intros HF; [cbn in HF; discriminate HF|rewrite entries_nowhere in HF; discriminate HF]]. apply entry_some in EE. destruct EE as [HE HM]. pose proof (entry_shorter _ _ _ HE).
      intros HF. apply IH in HF; [|lia]. destruct HF as (fs & r & HE2 & HC2 & HM2). exists (f :: fs), r.
      split; [econstructor; eassumption|]. split; [exact HC2|]. apply made_cons. eauto.
    + intros (fs & r & HE & HC2 & HM). inversion HE; subst; [contradiction|]. apply made_cons in HM. destruct HM as (h1 & HM1 & HM2).
      match goal with H : entry_read _ _ _ |- _ => pose proof (entry_shorter _ _ _ H); rename H into HE1 end.
      rewrite (proj2 (entry_some _ _ _ _ _) (conj HE1 HM1)). cbn [obind]. apply IH; [lia|]. eauto.
Qed.
Lemma entries_undef n : forall (t : bytes) h u, (length t < n)%nat ->
  f_entries n (Some t) h = Undef u <-> u = OutOfBounds /\ exists fs r h', entries_read t fs r /\ made fs h h' /\ ~ closed r /\ no_code r.
Proof.
  induction n as [|n IH]; intros t h u HL; [lia|]. destruct (closed_or t) as [HC|HC].
  - split.
    + destruct HC as [r ->]. discriminate.
    + intros (_ & fs & r & h' & HE & _ & HN & _). inversion HE; subst; contradiction.
  - rewrite entries_step by exact HC. split.
    + destruct (f_entry (Some t) h) as [[[h1 f] o']|?| |u'] eqn:EE; cbn [obind]; try discriminate.
      * destruct o' as [t'|]; [|destruct n; [destruct t; [discriminate EE|cbn [length] in HL; lia]|intros HF; rewrite entries_nowhere in HF; discriminate HF]]. apply entry_some in EE. destruct EE as [HE HM]. pose proof (entry_shorter _ _ _ HE).
        intros HF. apply IH in HF; [|lia]. destruct HF as (-> & fs & r & h2 & HE2 & HM2 & HC2 & HX). split; [reflexivity|].
        exists (f :: fs), r, h2. split; [econstructor; eassumption|]. split; [apply made_cons; eauto|auto].
      * intros [= <-]. apply entry_undef in EE. destruct EE as [-> HX]. split; [reflexivity|]. exists [], t, h. split; [constructor|]. split; [constructor|auto].
    + intros (-> & fs & r & h' & HE & HM & HC2 & HX). inversion HE; subst.
      * inversion HM; subst. rewrite (proj2 (entry_undef _ h' OutOfBounds) (conj eq_refl HX)). reflexivity.
      * apply made_cons in HM. destruct HM as (h1 & HM1 & HM2).
        match goal with H : entry_read _ _ _ |- _ => pose proof (entry_shorter _ _ _ H); rename H into HE1 end.
        rewrite (proj2 (entry_some _ _ _ _ _) (conj HE1 HM1)). cbn [obind]. apply IH; [lia|]. split; [reflexivity|]. eauto 8.
Qed.
