(** The compressor's window and its match finder (src/miniz/miniz.cpp 1348-1380,
    1586-1627): the ghost [inp] is all the input taken so far. *)
From Coq Require Import ZArith List Bool Lia.
From Verif Require Import Base Arr Tinfl Tdefl BaseFacts DeflateSpec BitFacts InflCopy DeflLz3.
Import ListNotations.
Open Scope Z_scope.

Lemma at_app1 a b i : 0 <= i < len a -> at_index (a ++ b) i = at_index a i.
Proof. intros H. unfold at_index. apply app_nth1. unfold len in H. lia. Qed.
Lemma at_app2 a b i : len a <= i -> at_index (a ++ b) i = at_index b (i - len a).
Proof.
  intros H. pose proof (len_nonneg _ a). unfold at_index. rewrite app_nth2 by (unfold len in *; lia).
  f_equal. unfold len. lia.
Qed.
Lemma at_byte inp i : bytes_ok inp -> 0 <= at_index inp i < 256.
Proof.
  intros B. unfold at_index. destruct (nth_in_or_default (Z.to_nat i) inp 0) as [H| ->]; [|lia].
  unfold bytes_ok in B. rewrite Forall_forall in B. apply B in H. exact H.
Qed.
Lemma land_dict a : Z.land a DICT_MASK = a mod 32768.
Proof. unfold DICT_MASK. change 32767 with (Z.ones 15). now rewrite Z.land_ones by lia. Qed.
Lemma u32_mod_dict a : u32 a mod 32768 = a mod 32768.
Proof. unfold u32. symmetry. apply Znumtheory.Zmod_div_mod; try lia. exists 131072. reflexivity. Qed.

Definition ring (dict : arr) (inp : bytes) : Prop :=
  forall x, 0 <= x < len inp -> len inp - 32768 <= x ->
    arr_get 0 dict (x mod 32768) = at_index inp x /\
    (x mod 32768 < 257 -> arr_get 0 dict (32768 + x mod 32768) = at_index inp x).
Lemma ring_nil dict : ring dict [].
Proof. intros x H. rewrite len_nil in H. lia. Qed.
Lemma ring_snoc dict inp c : ring dict inp -> ring (dict_store dict (len inp mod 32768) c) (inp ++ [c]).
Proof.
  intros R x Hx Hw. rewrite len_app, len_cons, len_nil in Hx, Hw.
  unfold dict_store, MAX_MATCH_LEN, TDEFL_LZ_DICT_SIZE.
  pose proof (len_nonneg _ inp). pose proof (Z.mod_pos_bound (len inp) 32768 ltac:(lia)) as MB.
  pose proof (Z.mod_pos_bound x 32768 ltac:(lia)) as XB.
  destruct (Z.eq_dec x (len inp)) as [->|N].
  - rewrite at_app2, Z.sub_diag by lia. change (at_index [c] 0) with c.
    destruct (Z.ltb_spec (len inp mod 32768) (258 - 1)).
    + rewrite arr_get_other by lia. rewrite !arr_get_same. auto.
    + rewrite arr_get_same. split; [reflexivity|lia].
  - assert (len inp mod 32768 <> x mod 32768) as D.
    { intros E. apply (mod_near x (len inp) 32768); lia. }
    rewrite at_app1 by lia. destruct (R x ltac:(lia) ltac:(lia)) as [R1 R2].
    destruct (Z.ltb_spec (len inp mod 32768) (258 - 1)).
    + rewrite !(arr_get_other 0 _ _ (x mod 32768)) by lia. split; [exact R1|]. intros L.
      rewrite !arr_get_other by lia. auto.
    + rewrite arr_get_other by lia. split; [exact R1|]. intros L. rewrite arr_get_other by lia. auto.
Qed.
(** the cells that follow the one of byte [x] hold the bytes that follow *)
Lemma ring_cell dict inp x j : ring dict inp -> 0 <= x -> 0 <= j <= 257 -> len inp - 32768 <= x -> x + j < len inp ->
  arr_get 0 dict (x mod 32768 + j) = at_index inp (x + j).
Proof.
  intros R Hx Hj Hw H. destruct (R (x + j) ltac:(lia) ltac:(lia)) as [R1 R2].
  pose proof (Z.mod_pos_bound x 32768 ltac:(lia)) as XB. pose proof (Z.div_mod x 32768 ltac:(lia)) as DM.
  destruct (Z_lt_le_dec (x mod 32768 + j) 32768) as [L|L].
  - rewrite <- R1. f_equal. rewrite <- (Z.mod_small (x mod 32768 + j) 32768) by lia. now rewrite Z.add_mod_idemp_l by lia.
  - assert ((x + j) mod 32768 = x mod 32768 + j - 32768) as E.
    { symmetry. apply (Z.mod_unique_pos _ _ (x / 32768 + 1)); lia. }
    rewrite E in R2. rewrite <- R2 by lia. f_equal. lia.
Qed.

(** ** Filling the lookahead buffer *)
Definition w_dict (w : arr * arr * arr) : arr := fst (fst w).
Lemma fill_loop_ok : forall n dst ins hash w lsize src inp,
  ring (w_dict w) inp -> dst = len inp mod 32768 ->
  exists w', fill_loop n dst ins hash w lsize src
    = (w', lsize + len (firstn n src), skipn n src) /\ ring (w_dict w') (inp ++ firstn n src).
Proof.
  induction n as [|n IH]; intros dst ins hash w lsize src inp R ->; cbn [fill_loop firstn skipn].
  - exists w. rewrite len_nil, Z.add_0_r, app_nil_r. auto.
  - destruct src as [|c t]; [exists w; rewrite len_nil, Z.add_0_r, app_nil_r; auto|].
    destruct w as [[dict next] heads]. cbv zeta.
    match goal with |- context [fill_loop n ?a ?b ?h ?w1 ?l t] =>
      destruct (IH a b h w1 l t (inp ++ [c])) as (w' & -> & R') end.
    + apply ring_snoc. exact R.
    + rewrite land_dict, len_app, len_cons, len_nil, Z.add_mod_idemp_l by lia. reflexivity.
    + exists w'. rewrite len_cons. rewrite <- app_assoc in R'. split; [|exact R'].
      replace (lsize + 1 + len (firstn n t)) with (lsize + (1 + len (firstn n t))) by lia. reflexivity.
Qed.
Lemma fill_start_ok : forall n lpos dsize w lsize src inp,
  ring (w_dict w) inp -> (lpos + lsize) mod 32768 = len inp mod 32768 ->
  exists w', fill_start n lpos dsize w lsize src
    = (w', lsize + len (firstn n src), skipn n src) /\ ring (w_dict w') (inp ++ firstn n src).
Proof.
  induction n as [|n IH]; intros lpos dsize w lsize src inp R E; cbn [fill_start firstn skipn].
  - exists w. rewrite len_nil, Z.add_0_r, app_nil_r. auto.
  - destruct src as [|c t]; [exists w; rewrite len_nil, Z.add_0_r, app_nil_r; auto|].
    destruct w as [[dict next] heads]. cbv zeta.
    match goal with |- context [fill_start n ?a ?b ?w1 ?l t] =>
      destruct (IH a b w1 l t (inp ++ [c])) as (w' & -> & R') end.
    + assert (ring (dict_store dict (Z.land (u32 (lpos + lsize)) DICT_MASK) c) (inp ++ [c])) as R1.
      { rewrite land_dict, u32_mod_dict, E. apply ring_snoc. exact R. }
      destruct (_ >=? _); exact R1.
    + rewrite len_app, len_cons, len_nil. rewrite Z.add_assoc, Z.add_mod, E, <- Z.add_mod by lia. reflexivity.
    + exists w'. rewrite len_cons. rewrite <- app_assoc in R'. split; [|exact R'].
      replace (lsize + 1 + len (firstn n t)) with (lsize + (1 + len (firstn n t))) by lia. reflexivity.
Qed.
Lemma fill_ok d src inp pos : ring (d_dict d) inp -> d_lpos d = u32 pos -> len inp = pos + d_lsize d ->
  exists dict next hash,
    let taken := ztake (258 - d_lsize d) src in
    fill d src = (set_window d dict next hash (d_lsize d + len taken), zdrop (258 - d_lsize d) src) /\
    ring dict (inp ++ taken).
Proof.
  intros R EL EN. unfold fill. cbv zeta. unfold MAX_MATCH_LEN.
  assert ((d_lpos d + d_lsize d) mod 32768 = len inp mod 32768) as E.
  { rewrite EL, EN, Z.add_mod, u32_mod_dict, <- Z.add_mod by lia. reflexivity. }
  rewrite ztake_firstn, zdrop_skipn. destruct (_ >=? _).
  - match goal with |- context [fill_loop ?n ?a ?b ?h ?w ?l src] =>
      destruct (fill_loop_ok n a b h w l src inp) as (w' & -> & R') end.
    + exact R.
    + now rewrite land_dict, u32_mod_dict.
    + exists (w_dict w'), (snd (fst w')), (snd w'). split; [reflexivity|exact R'].
  - match goal with |- context [fill_start ?n ?a ?b ?w ?l src] =>
      destruct (fill_start_ok n a b w l src inp) as (w' & -> & R') end.
    + exact R.
    + exact E.
    + exists (w_dict w'), (snd (fst w')), (snd w'). split; [reflexivity|exact R'].
Qed.

(** ** Finding a match *)
Definition matches (inp : bytes) (pos dist n : Z) : Prop :=
  forall k, 0 <= k < n -> at_index inp (pos + k) = at_index inp (pos - dist + k).
Lemma word_inj a b a' b' : 0 <= a < 256 -> 0 <= a' < 256 -> a + 256 * b = a' + 256 * b' -> a = a' /\ b = b'.
Proof. intros. assert (b = b') by lia. lia. Qed.

Section Find.
Variables (d : tdefl) (inp : bytes) (pos : Z).
Hypothesis B : bytes_ok inp.
Hypothesis R : ring (d_dict d) inp.
Hypothesis EL : d_lpos d = u32 pos.
Hypothesis EN : len inp = pos + d_lsize d.
Hypothesis LS : 0 <= d_lsize d <= 258.
Hypothesis DS : 0 <= d_dsize d <= pos.
Hypothesis W : d_dsize d + d_lsize d <= 32768.

Definition found (x : Z * Z) : Prop :=
  fst x = 0 \/ (1 <= fst x <= d_dsize d /\ 3 <= snd x <= d_lsize d /\ matches inp pos (fst x) (snd x)).
Let p := pos mod 32768.

Lemma find_pos : Z.land (d_lpos d) DICT_MASK = p.
Proof. rewrite land_dict, EL. apply u32_mod_dict. Qed.
Lemma cell_pos j : 0 <= j -> j < d_lsize d -> arr_get 0 (d_dict d) (p + j) = at_index inp (pos + j).
Proof. intros. apply ring_cell; auto; lia. Qed.
Lemma cell_back dist j : 1 <= dist <= d_dsize d -> 0 <= j -> j < d_lsize d ->
  arr_get 0 (d_dict d) ((pos - dist) mod 32768 + j) = at_index inp (pos - dist + j).
Proof. intros. apply ring_cell; auto; lia. Qed.

(** equal words: their first bytes agree, and their second ones if they are in the input *)
Lemma word_match dist j : 1 <= dist <= d_dsize d -> 0 <= j ->
  word_at (d_dict d) (p + j) = word_at (d_dict d) ((pos - dist) mod 32768 + j) ->
  (j < d_lsize d -> at_index inp (pos + j) = at_index inp (pos - dist + j)) /\
  (j + 1 < d_lsize d -> at_index inp (pos + (j + 1)) = at_index inp (pos - dist + (j + 1))).
Proof.
  intros HD Hj E. destruct (Z_lt_le_dec j (d_lsize d)) as [L|L]; [|split; lia].
  unfold word_at in E. rewrite cell_pos, cell_back in E by lia.
  apply word_inj in E; [|now apply at_byte|now apply at_byte]. destruct E as [E1 E2]. split; [auto|]. intros L2.
  rewrite <- !Z.add_assoc in E2. now rewrite cell_pos, cell_back in E2 by lia.
Qed.
Lemma first_diff_ok dist : 1 <= dist <= d_dsize d -> forall n i,
  0 <= i -> matches inp pos dist (Z.min (d_lsize d) (2 * i)) ->
  match first_diff n (d_dict d) p ((pos - dist) mod 32768) i with
  | None => matches inp pos dist (Z.min (d_lsize d) (2 * (i + Z.of_nat n)))
  | Some k => i <= k /\ matches inp pos dist (Z.min (d_lsize d) (2 * k))
  end.
Proof.
  intros HD. induction n as [|n IH]; intros i Hi M; cbn [first_diff].
  - now rewrite Z.add_0_r.
  - destruct (Z.eqb_spec (word_at (d_dict d) (p + 2 * i)) (word_at (d_dict d) ((pos - dist) mod 32768 + 2 * i))) as [E|E]; [|split; [lia|exact M]].
    destruct (word_match dist (2 * i) HD ltac:(lia) E) as [W1 W2].
    assert (matches inp pos dist (Z.min (d_lsize d) (2 * (i + 1)))) as M1.
    { intros k Hk. destruct (Z_lt_le_dec k (2 * i)); [apply M; lia|].
      destruct (Z.eq_dec k (2 * i)) as [->|]; [apply W1; lia|]. replace k with (2 * i + 1) by lia. apply W2. lia. }
    specialize (IH (i + 1) ltac:(lia) M1). replace (i + 1 + Z.of_nat n) with (i + Z.of_nat (S n)) in IH by lia.
    destruct (first_diff _ _ _ _ (i + 1)); [|exact IH]. destruct IH. split; [lia|assumption].
Qed.
Lemma probe_ok ml c01 at_ q dist : probe d (d_dsize d) ml c01 at_ = P_hit q dist ->
  0 <= dist <= d_dsize d /\ q = (pos - dist) mod 32768.
Proof.
  unfold probe. set (np := arr_get 0 (d_next d) at_). destruct (np =? 0); [discriminate|].
  set (dd := u16 (d_lpos d - np)). destruct (Z.gtb_spec dd (d_dsize d)); [discriminate|].
  destruct (_ =? c01); [|discriminate]. intros [= <- <-].
  assert (0 <= dd) by (subst dd; unfold u16; apply Z.mod_pos_bound; lia). split; [lia|].
  rewrite land_dict. subst dd. rewrite EL. unfold u16, u32.
  rewrite <- (Zminus_mod_idemp_r pos). rewrite <- (Znumtheory.Zmod_div_mod 32768 65536) by (try lia; exists 2; reflexivity).
  rewrite Zminus_mod_idemp_r. rewrite <- (Zminus_mod_idemp_l pos).
  replace (pos mod 32768) with ((pos mod 4294967296) mod 32768) by (apply u32_mod_dict).
  rewrite Zminus_mod_idemp_l. f_equal. lia.
Qed.
Lemma probe3_ok ml c01 at_ q dist : probe3 d (d_dsize d) ml c01 at_ = P_hit q dist ->
  0 <= dist <= d_dsize d /\ q = (pos - dist) mod 32768.
Proof.
  unfold probe3. destruct (probe d (d_dsize d) ml c01 at_) eqn:E1; try discriminate.
  2: { intros [= <- <-]. eapply probe_ok; eassumption. }
  destruct (probe d (d_dsize d) ml c01 pos0) eqn:E2; try discriminate.
  2: { intros [= <- <-]. eapply probe_ok; eassumption. }
  apply probe_ok.
Qed.
Lemma find_loop_ok : 3 <= d_lsize d -> forall n at_ dist0 ml c01, 2 <= ml ->
  found (dist0, ml) -> found (find_loop n d (d_dsize d) (d_lsize d) p at_ dist0 ml c01).
Proof.
  intros L3. induction n as [|n IH]; intros at_ dist0 ml c01 H2 F; cbn [find_loop]; [exact F|].
  destruct n as [|n]; [exact F|]. set (n' := S n) in *.
  destruct (probe3 d (d_dsize d) ml c01 at_) as [|q|q dist] eqn:E; [exact F|now apply IH|].
  apply probe3_ok in E. destruct E as [HD ->].
  destruct (Z.eqb_spec dist 0); [exact F|]. assert (1 <= dist <= d_dsize d) as HD1 by lia.
  destruct (Z.eqb_spec (word_at (d_dict d) ((pos - dist) mod 32768)) (word_at (d_dict d) p)) as [E0|]; cbn [negb]; [|now apply IH].
  destruct (word_match dist 0 HD1 ltac:(lia)) as [W1 W2]; [now rewrite !Z.add_0_r|].
  assert (matches inp pos dist (Z.min (d_lsize d) (2 * 1))) as M0.
  { intros k Hk. assert (k = 0 \/ k = 0 + 1) as [->| ->] by lia; [apply W1|apply W2]; lia. }
  pose proof (first_diff_ok dist HD1 128 1 ltac:(lia) M0) as FD.
  destruct (first_diff 128 (d_dict d) p ((pos - dist) mod 32768) 1) as [i|].
  - destruct FD as [Hi M]. set (l := 2 * i + _).
    assert (2 <= l /\ matches inp pos dist (Z.min (d_lsize d) l)) as [Hl ML].
    { subst l. destruct (Z.eqb_spec (arr_get 0 (d_dict d) (p + 2 * i)) (arr_get 0 (d_dict d) ((pos - dist) mod 32768 + 2 * i))) as [EE|];
        [|rewrite Z.add_0_r; split; [lia|exact M]]. split; [lia|].
      intros k Hk. destruct (Z_lt_le_dec k (2 * i)); [apply M; lia|]. replace k with (2 * i) by lia.
      rewrite cell_pos, cell_back in EE by lia. exact EE. }
    destruct (Z.gtb_spec l ml); [|now apply IH].
    assert (found (dist, Z.min (d_lsize d) l)) as FF by (right; cbn [fst snd]; split; [lia|split; [lia|exact ML]]).
    destruct (_ =? d_lsize d); [exact FF|]. apply IH; [lia|exact FF].
  - right. cbn [fst snd]. unfold MAX_MATCH_LEN. split; [lia|]. split; [lia|].
    intros k Hk. apply FD. change (Z.of_nat 128) with 128. lia.
Qed.
Lemma find_match_ok : found (find_match d).
Proof.
  unfold find_match. rewrite find_pos. unfold MIN_MATCH_LEN. destruct (Z.leb_spec (d_lsize d) (3 - 1)); [now left|].
  apply find_loop_ok; [lia|lia|now left].
Qed.
Lemma here_ok : 0 < d_lsize d -> arr_get 0 (d_dict d) (Z.land (d_lpos d) DICT_MASK) = at_index inp pos.
Proof. intros. rewrite find_pos. rewrite <- (Z.add_0_r p), <- (Z.add_0_r pos). apply cell_pos; lia. Qed.
End Find.

(** ** What the tokens mean *)
Lemma ztake_snoc inp n : 0 <= n < len inp -> ztake (n + 1) inp = ztake n inp ++ [at_index inp n].
Proof.
  intros H. rewrite !ztake_firstn. replace (Z.to_nat (n + 1)) with (S (Z.to_nat n)) by lia. unfold at_index.
  assert (Z.to_nat n < length inp)%nat as L by (unfold len in H; lia). revert L. clear H.
  generalize (Z.to_nat n). intros m. revert inp. induction m as [|m IH]; intros [|x inp] L; cbn [length] in L; try lia; [reflexivity|].
  change (x :: firstn (S m) inp = x :: (firstn m inp ++ [nth m inp 0])). f_equal. apply IH. lia.
Qed.
Lemma copy_matches inp dist : 1 <= dist -> forall m pos, dist <= pos -> pos + Z.of_nat m <= len inp ->
  matches inp pos dist (Z.of_nat m) -> copy m dist (ztake pos inp) = ztake (pos + Z.of_nat m) inp.
Proof.
  intros HD. induction m as [|m IH]; intros pos HP HL M; cbn [copy].
  - now rewrite Z.add_0_r.
  - rewrite len_ztake. replace (Z.max 0 (Z.min pos (len inp))) with pos by lia.
    assert (nth (Z.to_nat (pos - dist)) (ztake pos inp) 0 = at_index inp pos) as ->.
    { rewrite <- (Z.add_0_r pos) at 3. rewrite (M 0) by lia. rewrite Z.add_0_r.
      change (at_index (ztake pos inp) (pos - dist) = at_index inp (pos - dist)).
      rewrite <- (ztake_zdrop _ pos inp) at 2. rewrite at_app1; [reflexivity|]. rewrite len_ztake. lia. }
    rewrite <- ztake_snoc by lia. rewrite IH; [f_equal; lia|lia|lia|].
    intros k Hk. replace (pos + 1 + k) with (pos + (k + 1)) by lia. rewrite M by lia. f_equal. lia.
Qed.
Lemma expands_snoc out ts r c : expands out ts r -> expands out (ts ++ [Lit c]) (r ++ [c]).
Proof. induction 1; cbn [app]; constructor; auto. constructor. Qed.
Lemma expands_snoc_copy out ts r n k : expands out ts r -> 1 <= k <= len r ->
  expands out (ts ++ [Copy n k]) (copy (Z.to_nat n) k r).
Proof. intros E H. induction E; cbn [app]; constructor; auto. constructor. Qed.
