(** The table builder of tinfl (miniz.cpp 590-619) yields the canonical code. *)
From Coq Require Import ZArith List Bool Lia.
From Verif Require Import Base BaseFacts Arr DeflateSpec Tinfl BitFacts HuffFacts.
Import ListNotations.
Open Scope Z_scope.

Lemma app_single_inj {A} (p q : list A) a b : p ++ [a] = q ++ [b] -> p = q /\ a = b.
Proof. intros H. apply app_inj_tail in H. exact H. Qed.
Lemma nth_error_snoc {A} (l : list A) x k y :
  nth_error (l ++ [x]) k = Some y -> nth_error l k = Some y \/ (k = length l /\ y = x).
Proof.
  intros H. destruct (lt_dec k (length l)).
  - rewrite nth_error_app1 in H by lia. auto.
  - rewrite nth_error_app2 in H by lia. right.
    destruct (k - length l)%nat as [|j] eqn:E; [|destruct j; discriminate].
    cbn in H. split; [lia|congruence].
Qed.
Lemma nth_error_snoc_last {A} (l : list A) x : nth_error (l ++ [x]) (length l) = Some x.
Proof. rewrite nth_error_app2, Nat.sub_diag by lia. reflexivity. Qed.

Section Build.
Variable L : list Z.
Hypothesis HL : lens_ok L.
Hypothesis HK : kraft L <= 2 ^ 15.
Local Notation cw := (cw L).
Local Notation done := (done L).
Local Notation inv := (inv L).
Local Notation labels_ok := (labels_ok L).

Lemma done_mono n n' s : n <= n' -> done n s -> done n' s.
Proof. unfold HuffFacts.done. intuition lia. Qed.
Lemma labels_mono m m' labs : m <= m' -> labels_ok m labs -> labels_ok m' labs.
Proof.
  intros H [N F]. split; [assumption|]. intros p Hp. destruct (F p Hp) as (Hl & s & Hs & Hpp).
  split; [assumption|]. exists s. split; [eapply done_mono; eauto|assumption].
Qed.
Lemma prefix_done n s w r : in_code L n -> done n s -> cw n = w ++ r -> forall r', w <> cw s ++ r'.
Proof.
  intros Hn [Hs Hlt] E r' E'. assert (s = n); [|lia].
  eapply (cw_prefix L HL HK s n (r' ++ r)); auto. rewrite E, E', app_assoc. reflexivity.
Qed.
Lemma inv_none n labs look tree : ~ in_code L n -> inv n n labs look tree -> inv (n + 1) (n + 1) labs look tree.
Proof.
  intros Hn I.
  assert (forall s, done (n + 1) s -> done n s) as D.
  { intros s [Hs Hlt]. split; [assumption|]. destruct (Z.eq_dec s n); [subst; contradiction|lia]. }
  destruct I; split; eauto using labels_mono.
  - eapply labels_mono; [|eassumption]. lia.
  - intros. apply iv_look_none; auto. intros. apply H1. eapply done_mono; [|eassumption]. lia.
  - intros. apply (iv_tree_none k p b); auto. intros. apply H1. eapply done_mono; [|eassumption]. lia.
Qed.
Lemma done_next n s : done (n + 1) s -> s = n \/ done n s.
Proof.
  intros [Hs Hlt]. destruct (Z.eq_dec s n); [now left|right]. split; [assumption|lia].
Qed.

(** a short code: fill the table *)
Lemma inv_short n labs look tree look' :
  in_code L n -> code_len L n <= 10 -> inv n n labs look tree ->
  (forall w, length w = 10%nat ->
     arr_get 0 look' (bval w) =
       if bval w mod 2 ^ code_len L n =? bval (cw n) then code_len L n * 512 + n
       else arr_get 0 look (bval w)) ->
  inv (n + 1) (n + 1) labs look' tree.
Proof.
  intros Hn Hs I Hl. pose proof (code_len_range L n HL) as R. pose proof Hn as [_ Hn0].
  pose proof (cw_length L n) as Cl.
  assert (forall w, length w = 10%nat -> bval w mod 2 ^ code_len L n = bval (cw n) -> exists r, w = cw n ++ r) as A.
  { intros w Hw E. exists (skipn (length (cw n)) w).
    rewrite <- (firstn_skipn (length (cw n)) w) at 1. f_equal. apply bval_inj.
    - rewrite firstn_length. lia.
    - rewrite bval_firstn by lia. rewrite Cl, Z2Nat.id by lia. exact E. }
  assert (forall w r, w = cw n ++ r -> length w = 10%nat -> bval w mod 2 ^ code_len L n = bval (cw n)) as B.
  { intros w r E Hw. replace (code_len L n) with (Z.of_nat (length (cw n))) by lia.
    rewrite <- bval_firstn by lia. subst w. rewrite firstn_app, Nat.sub_diag, firstn_all. cbn [firstn].
    now rewrite app_nil_r. }
  assert (forall s r w, done n s -> w = cw s ++ r -> length w = 10%nat -> bval w mod 2 ^ code_len L n <> bval (cw n)) as C.
  { intros s r w [Hs' Hlt] E Hw Em. destruct (A w Hw Em) as [r' E'].
    assert (s = n); [|lia]. eapply (cw_same L HL HK s n r r'); auto. congruence. }
  assert (forall p b k, nth_error labs k = Some p -> cw n <> p ++ [b]) as NL.
  { intros p b k Hp E. destruct I as [[_ F] _ _ _ _ _ _ _ _ _].
    destruct (F p (nth_error_In _ _ Hp)) as (H10 & _). rewrite E, app_length in Cl. cbn [length] in Cl. lia. }
  pose proof (iv_labels _ _ _ _ _ _ I) as IL.
  destruct I; split; auto.
  - eapply labels_mono; [|eassumption]. lia.
  - intros s p Hd Hp H10. apply done_next in Hd. destruct Hd as [->|Hd]; [|eapply iv_all; eauto].
    destruct Hp as (r & Hr & E). rewrite E, app_length in Cl. destruct r; [congruence|cbn [length] in Cl; lia].
  - intros k w Hw Hk. rewrite Hl by assumption.
    destruct (_ =? _) eqn:E; [|now apply iv_look_node]. apply Z.eqb_eq in E.
    destruct (A w Hw E) as [r E']. exfalso.
    eapply (label_not_above L HL HK n labs w n r); eauto. eapply nth_error_In; eauto.
  - intros s w r Hw Hd E. rewrite Hl by assumption. apply done_next in Hd. destruct Hd as [->|Hd].
    + rewrite (B w r E Hw), Z.eqb_refl. reflexivity.
    + replace (_ =? _) with false by (symmetry; apply Z.eqb_neq; eapply C; eauto).
      eapply iv_look_sym; eauto.
  - intros w Hw Hni Hno. rewrite Hl by assumption.
    destruct (_ =? _) eqn:E.
    + apply Z.eqb_eq in E. destruct (A w Hw E) as [r E']. exfalso. apply (Hno n r); auto.
      split; [assumption|lia].
    + apply iv_look_none; auto. intros s r Hd. apply Hno. eapply done_mono; [|eassumption]. lia.
  - intros k p b s Hk Hd E. apply done_next in Hd. destruct Hd as [->|Hd].
    + exfalso. eapply NL; eauto.
    + eapply iv_tree_sym; eauto.
  - intros k p b Hk Hni Hno. eapply iv_tree_none; eauto. intros s Hd. apply Hno.
    eapply done_mono; [|eassumption]. lia.
Qed.

(** a new inner node *)
Lemma inv_alloc n labs look tree look' tree' q r :
  in_code L n -> inv (n + 1) n labs look tree ->
  cw n = q ++ r -> r <> [] -> (10 <= length q)%nat -> ~ In q labs ->
  ((10 < length q)%nat -> exists p b, q = p ++ [b] /\ In p labs) ->
  (forall w, length w = 10%nat -> w <> q -> arr_get 0 look' (bval w) = arr_get 0 look (bval w)) ->
  (length q = 10%nat -> arr_get 0 look' (bval q) = -1 - 2 * len labs) ->
  (forall k p b, nth_error labs k = Some p -> p ++ [b] <> q ->
     arr_get 0 tree' (2 * Z.of_nat k + b2z b) = arr_get 0 tree (2 * Z.of_nat k + b2z b)) ->
  (forall k p b, nth_error labs k = Some p -> p ++ [b] = q ->
     arr_get 0 tree' (2 * Z.of_nat k + b2z b) = -1 - 2 * len labs) ->
  (forall i, 2 * len labs <= i -> arr_get 0 tree' i = arr_get 0 tree i) ->
  inv (n + 1) n (labs ++ [q]) look' tree'.
Proof.
  intros Hn I E Hr Hq Hni Hpar HL1 HL2 HT1 HT2 HT3.
  pose proof (prefix_done n) as PD.
  assert (length (labs ++ [q]) = S (length labs)) as Len by (rewrite app_length; cbn; lia).
  destruct I; split.
  - destruct iv_labels as [N F]. split.
    + apply (NoDup_Add (Add_app q labs [])). rewrite app_nil_r. auto.
    + intros p Hp. apply in_app_or in Hp. destruct Hp as [Hp|[<-|[]]]; [auto|].
      split; [assumption|]. exists n. split; [split; [assumption|lia]|]. exists r. auto.
  - intros s p Hd Hp H10. apply in_or_app. left. eauto.
  - intros k w Hw Hk. apply nth_error_snoc in Hk. destruct Hk as [Hk|[-> ->]].
    + rewrite HL1; auto. intros ->. apply Hni. eapply nth_error_In; eauto.
    + rewrite HL2 by assumption. reflexivity.
  - intros s w r' Hw Hd Ew. rewrite HL1; [eauto|assumption|]. intros Eq.
    apply (PD s q r Hn Hd E r'). congruence.
  - intros w Hw Hn' Hno. assert (~ In w labs /\ w <> q) as [H1 H2].
    { split; intros H; apply Hn'; apply in_or_app; [now left|right; now left]. }
    rewrite HL1 by auto. apply iv_look_none; auto.
  - intros k k' p b Hk Hk'. apply nth_error_snoc in Hk, Hk'.
    destruct Hk as [Hk|[-> ->]]; destruct Hk' as [Hk'|[-> Hk']].
    + rewrite HT1 with (p := p); eauto. intros Eq. apply Hni. rewrite <- Eq. eapply nth_error_In; eauto.
    + rewrite (HT2 _ _ _ Hk Hk'). reflexivity.
    + exfalso. apply Hni. eapply iv_closed; [eapply nth_error_In; eauto|assumption].
    + exfalso. apply (f_equal (@length bool)) in Hk'. rewrite app_length in Hk'. cbn in Hk'. lia.
  - intros k p b s Hk Hd Es. apply nth_error_snoc in Hk. destruct Hk as [Hk|[-> ->]].
    + rewrite HT1 with (p := p); eauto. intros Eq. apply (PD s q r Hn Hd E []).
      rewrite app_nil_r. congruence.
    + exfalso. apply Hni. eapply iv_all; [exact Hd| |assumption]. exists [b]. split; [discriminate|assumption].
  - intros k p b Hk Hn' Hno. apply nth_error_snoc in Hk. destruct Hk as [Hk|[-> ->]].
    + rewrite HT1 with (p := p); auto.
      * eapply iv_tree_none; eauto. intros H. apply Hn'. apply in_or_app. now left.
      * intros Eq. apply Hn'. rewrite Eq. apply in_or_app. right. now left.
    + assert (0 <= b2z b) by (destruct b; cbn; lia).
      rewrite HT3 by (unfold len; lia). apply iv_tree_free. unfold len; lia.
  - intros i Hi. rewrite len_app in Hi. change (len [q]) with 1 in Hi.
    rewrite HT3 by lia. apply iv_tree_free. lia.
  - intros p b Hp H10. apply in_or_app. apply in_app_or in Hp. destruct Hp as [Hp|[Hp|[]]].
    + left. eauto.
    + left. destruct (Hpar ltac:(rewrite Hp, app_length; cbn; lia)) as (p' & b' & Eq & Hin).
      rewrite Hp in Eq. apply app_single_inj in Eq. destruct Eq as [<- _]. assumption.
Qed.
Lemma closed_prefix m n labs look tree p r : inv m n labs look tree -> In (p ++ r) labs -> (10 <= length p)%nat -> In p labs.
Proof.
  intros I. induction r as [|x r IH] using rev_ind; intros H H10.
  - now rewrite app_nil_r in H.
  - apply IH; auto. apply (iv_closed _ _ _ _ _ _ I (p ++ r) x).
    + now rewrite <- app_assoc.
    + rewrite app_length. lia.
Qed.
(** the last bit: the symbol itself *)
Lemma inv_leaf n labs look tree tree' k p b :
  in_code L n -> inv (n + 1) n labs look tree ->
  cw n = p ++ [b] -> nth_error labs k = Some p ->
  (forall i, 0 <= i -> i <> 2 * Z.of_nat k + b2z b -> arr_get 0 tree' i = arr_get 0 tree i) ->
  arr_get 0 tree' (2 * Z.of_nat k + b2z b) = n ->
  inv (n + 1) (n + 1) labs look tree'.
Proof.
  intros Hn I E Hk HT1 HT2.
  assert (Hin := nth_error_In _ _ Hk).
  assert (10 <= length p)%nat as H10 by (destruct I as [[_ F] _ _ _ _ _ _ _ _ _]; apply (F p Hin)).
  assert (k < length labs)%nat as Hkl by (apply nth_error_Some; congruence).
  assert (forall b, 0 <= b2z b <= 1) as B01 by (intros [|]; cbn; lia).
  assert (forall k1 p1 b1, nth_error labs k1 = Some p1 -> p1 ++ [b1] <> cw n ->
     arr_get 0 tree' (2 * Z.of_nat k1 + b2z b1) = arr_get 0 tree (2 * Z.of_nat k1 + b2z b1)) as HT.
  { intros k1 p1 b1 Hk1 Hne. pose proof (B01 b). pose proof (B01 b1). apply HT1; [lia|].
    intros Eq. assert (k1 = k) by lia. subst k1. assert (b2z b1 = b2z b) as Eb by lia.
    assert (b1 = b) by (destruct b, b1; cbn in Eb; congruence). subst. congruence. }
  pose proof (iv_labels _ _ _ _ _ _ I) as IL.
  assert (forall p r, In (p ++ r) labs -> (10 <= length p)%nat -> In p labs) as CP2 by (intros; eapply closed_prefix; eauto).
  destruct I; split; auto.
  - intros s q Hd Hp Hq. apply done_next in Hd. destruct Hd as [->|Hd]; [|eauto].
    destruct Hp as (r & Hr & Er). rewrite E in Er.
    destruct r as [|x r _] using rev_ind; [congruence|].
    rewrite app_assoc in Er. apply app_single_inj in Er. destruct Er as [Er _].
    eapply CP2; [rewrite <- Er; exact Hin|assumption].
  - intros s w r Hw Hd Ew. apply done_next in Hd. destruct Hd as [->|Hd]; [|eauto].
    exfalso. apply (f_equal (@length bool)) in Ew, E. rewrite app_length in Ew, E. cbn [length] in E. lia.
  - intros w Hw Hni Hno. apply iv_look_none; auto. intros s r Hd. apply Hno. eapply done_mono; [|eassumption]. lia.
  - intros k1 k' p1 b1 H1 H2. rewrite HT with (p1 := p1); eauto. intros Eq.
    eapply (label_not_above L HL HK _ labs (p1 ++ [b1]) n []); eauto.
    + eapply nth_error_In; eauto.
    + now rewrite app_nil_r.
  - intros k1 p1 b1 s H1 Hd Es. apply done_next in Hd. destruct Hd as [->|Hd].
    + rewrite E in Es. apply app_single_inj in Es. destruct Es as [<- <-].
      assert (k1 = k) by (eapply nth_error_unique; eauto using lb_nodup). subst k1. assumption.
    + rewrite HT with (p1 := p1); eauto. intros Eq. destruct Hd as [Hs Hlt].
      assert (s = n); [|lia]. eapply (cw_prefix L HL HK s n []); auto. rewrite app_nil_r. congruence.
  - intros k1 p1 b1 H1 Hni Hno. rewrite HT with (p1 := p1); auto.
    + eapply iv_tree_none; eauto. intros s Hd. apply Hno. eapply done_mono; [|eassumption]. lia.
    + intros Eq. apply (Hno n); [split; [assumption|lia]|auto].
  - intros i Hi. pose proof (B01 b). unfold len in Hi. rewrite HT1 by lia. apply iv_tree_free. unfold len. lia.
Qed.
Lemma inv_more n labs look tree : inv n n labs look tree -> inv (n + 1) n labs look tree.
Proof. intros I. destruct I; split; auto. eapply labels_mono; [|eassumption]. lia. Qed.

Hypothesis HB : forall m labs, labels_ok m labs -> len labs <= 288.
Lemma b2z01 b : 0 <= b2z b <= 1.
Proof. destruct b; cbn; lia. Qed.
Lemma grow_spec n : in_code L n -> forall rem p k b x labs,
  inv (n + 1) n labs (b_look b) (b_tree b) -> b_free b = -1 - 2 * len labs ->
  nth_error labs k = Some p -> cw n = p ++ rem -> rem <> [] ->
  exists labs' k' p' x' y b',
    grow (length rem - 1) (bval (x :: rem)) (-1 - 2 * Z.of_nat k) b
      = Ok (bval [x'; y], -1 - 2 * Z.of_nat k', b') /\
    cw n = p' ++ [y] /\ nth_error labs' k' = Some p' /\
    inv (n + 1) n labs' (b_look b') (b_tree b') /\ b_free b' = -1 - 2 * len labs' /\
    b_next b' = b_next b.
Proof.
  intros Hn rem. induction rem as [|y rem IH]; intros p k b x labs I Hf Hk E Hr; [congruence|].
  destruct rem as [|y2 rem].
  - exists labs, k, p, x, y, b. cbn [length Nat.sub grow]. auto 10.
  - replace (length (y :: y2 :: rem) - 1)%nat with (S (length (y2 :: rem) - 1)) by (cbn [length]; lia).
    cbn [grow]. rewrite bval_cons_shiftr, bval_cons_land.
    assert (Hin := nth_error_In _ _ Hk).
    assert (10 <= length p)%nat as H10 by (destruct I as [[_ F] _ _ _ _ _ _ _ _ _]; apply (F p Hin)).
    assert (k < length labs)%nat as Hkl by (apply nth_error_Some; congruence).
    pose proof (HB _ _ (iv_labels _ _ _ _ _ _ I)) as H288.
    pose proof (b2z01 y) as By.
    replace (- (-1 - 2 * Z.of_nat k - b2z y) - 1) with (2 * Z.of_nat k + b2z y) by lia.
    unfold tree_at, TREE_SIZE.
    replace ((0 <=? 2 * Z.of_nat k + b2z y) && (2 * Z.of_nat k + b2z y <? 576)) with true
      by (symmetry; unfold len in H288; lia).
    cbn [obind].
    assert (cw n = (p ++ [y]) ++ y2 :: rem) as E2 by (rewrite <- app_assoc; exact E).
    destruct (in_dec (list_eq_dec bool_dec) (p ++ [y]) labs) as [Hin2|Hni].
    + apply In_nth_error in Hin2. destruct Hin2 as [k' Hk'].
      rewrite (iv_tree_node _ _ _ _ _ _ I k k' p y Hk Hk').
      replace (-1 - 2 * Z.of_nat k' =? 0) with false by (symmetry; apply Z.eqb_neq; lia).
      apply (IH (p ++ [y]) k' b y labs); auto. discriminate.
    + rewrite (iv_tree_none _ _ _ _ _ _ I k p y Hk Hni); [|].
      2:{ intros s Hd Es. apply (prefix_done n s (p ++ [y]) (y2 :: rem) Hn Hd E2 []).
          rewrite app_nil_r. congruence. }
      cbn [Z.eqb]. unfold tree_put, TREE_SIZE.
      replace ((0 <=? 2 * Z.of_nat k + b2z y) && (2 * Z.of_nat k + b2z y <? 576)) with true
        by (symmetry; unfold len in H288; lia).
      cbn [obind].
      set (b1 := mk_building _ _ _ _).
      destruct (IH (p ++ [y]) (length labs) b1 y (labs ++ [p ++ [y]])) as (labs' & k' & p' & x' & y' & b' & G & R).
      * apply (inv_alloc n labs (b_look b) (b_tree b) _ _ (p ++ [y]) (y2 :: rem)); auto.
        -- discriminate.
        -- rewrite app_length. lia.
        -- intros _. eauto.
        -- rewrite app_length. cbn [length]. lia.
        -- intros k1 p1 y1 Hk1 Hne. pose proof (b2z01 y1). cbn [b_tree b1]. apply arr_get_other; [lia..|].
           intros Eq. assert (k1 = k) by lia. subst k1. assert (b2z y1 = b2z y) as Eb by lia.
           assert (y1 = y) by (destruct y, y1; cbn in Eb; congruence). congruence.
        -- intros k1 p1 y1 Hk1 Eq. apply app_single_inj in Eq. destruct Eq as [-> ->].
           assert (k1 = k) by (eapply nth_error_unique; eauto using lb_nodup, (iv_labels _ _ _ _ _ _ I)).
           subst k1. cbn [b_tree b1]. rewrite arr_get_same. assumption.
        -- intros i Hi. cbn [b_tree b1]. apply arr_get_other; unfold len in *; lia.
      * cbn [b_free b1]. rewrite len_app. change (len [p ++ [y]]) with 1. lia.
      * apply nth_error_snoc_last.
      * exact E2.
      * discriminate.
      * exists labs', k', p', x', y', b'. split; [|exact R].
        rewrite <- G. f_equal. rewrite Hf. unfold len. lia.
Qed.

Lemma fill_look_spec size k : 1 <= size <= 10 -> forall turns look r,
  (Z.to_nat (1024 - r) <= turns)%nat -> 0 <= r ->
  exists look', fill_look turns look r size k = Ok look' /\
    forall i, 0 <= i < 1024 ->
      arr_get 0 look' i = if (r <=? i) && ((i - r) mod 2 ^ size =? 0) then k else arr_get 0 look i.
Proof.
  intros Hs turns. induction turns as [|turns IH]; intros look r Ht Hr; cbn [fill_look]; unfold TINFL_FAST_LOOKUP_SIZE.
  - replace (r <? 1024) with false by lia. eexists. split; [reflexivity|]. intros.
    replace (r <=? i) with false by lia. reflexivity.
  - destruct (r <? 1024) eqn:E.
    + assert (0 < 2 ^ size) by (apply pow2_pos; lia).
      rewrite Z.shiftl_mul_pow2 by lia. rewrite Z.mul_1_l.
      unfold look_put. replace ((0 <=? r) && (r <? 1024)) with true by lia. cbn [obind].
      destruct (IH (arr_set look r k) (r + 2 ^ size) ltac:(lia) ltac:(lia)) as (look' & El & Hl).
      exists look'. split; [exact El|]. intros i Hi. rewrite Hl by assumption.
      replace (i - (r + 2 ^ size)) with (i - r + (-1) * 2 ^ size) by lia.
      rewrite Z_mod_plus_full.
      destruct ((i - r) mod 2 ^ size =? 0) eqn:Em; rewrite ?andb_false_r.
      * rewrite !andb_true_r. destruct (r + 2 ^ size <=? i) eqn:E2.
        -- replace (r <=? i) with true by lia. reflexivity.
        -- destruct (Z.eq_dec i r) as [->|].
           ++ rewrite arr_get_same. now rewrite Z.leb_refl.
           ++ rewrite arr_get_other by lia. destruct (r <=? i) eqn:E3; [|reflexivity].
              rewrite Z.mod_small in Em by lia. lia.
      * destruct (Z.eq_dec i r) as [->|]; [rewrite Z.sub_diag, Z.mod_0_l in Em by lia; discriminate|].
        apply arr_get_other; lia.
    + eexists. split; [reflexivity|]. intros. replace (r <=? i) with false by lia. reflexivity.
Qed.

Definition bst (n : Z) (labs : list (list bool)) (b : building) : Prop :=
  inv n n labs (b_look b) (b_tree b) /\ b_free b = -1 - 2 * len labs /\ length (b_next b) = 17%nat /\
  forall l, 1 <= l <= 15 -> nth (Z.to_nat l) (b_next b) 0 = space_before L 0 n l.

Lemma bst_init : bst 0 [] (mk_building (next_codes L) arr_empty arr_empty (-1)).
Proof.
  split; [|split; [|split]]; cbn [b_look b_tree b_free b_next].
  - split; intros; try (destruct k; discriminate); rewrite ?arr_get_empty; auto.
    + split; [constructor|]. intros p [].
    + destruct H as [[? _] ?]. lia.
    + destruct H0 as [[? _] ?]. lia.
  - reflexivity.
  - apply next_codes_length.
  - intros. apply next_codes_nth. lia.
Qed.

Hypothesis H512 : len L <= 512.
Lemma nth_nth_update (l : list Z) i j x : (i < length l)%nat ->
  nth j (nth_update l i x) 0 = if Nat.eqb i j then x else nth j l 0.
Proof.
  revert i j. induction l as [|y l IH]; intros i j H; [cbn in H; lia|].
  destruct i, j; cbn [nth_update nth Nat.eqb]; auto. apply IH. cbn in H. lia.
Qed.
Lemma lor_size_sym size sym : 0 <= sym < 512 -> Z.lor (Z.shiftl size 9) sym = size * 512 + sym.
Proof.
  intros. rewrite Z.shiftl_mul_pow2 by lia. change 512 with (2 ^ 9). apply lor_high_low; [lia|].
  change (2 ^ 9) with 512. lia.
Qed.
Lemma add_symbol_ok n labs b : 0 <= n < len L -> bst n labs b ->
  exists labs' b', add_symbol n (code_len L n) b = Ok b' /\ bst (n + 1) labs' b'.
Proof.
  intros Hn (I & Hf & Hlen & Hnext). unfold add_symbol.
  pose proof (code_len_range L n HL) as R.
  destruct (code_len L n =? 0) eqn:E0.
  - apply Z.eqb_eq in E0. exists labs, b. split; [reflexivity|].
    split; [|split; [|split]]; auto.
    + apply inv_none; auto. intros [_ ?]. lia.
    + intros l Hl. rewrite Hnext by assumption. rewrite space_before_step by lia.
      rewrite Z.sub_0_r, E0. cbn [Z.ltb Z.compare andb]. lia.
  - apply Z.eqb_neq in E0. assert (in_code L n) as Hin by (split; lia).
    set (size := code_len L n) in *.
    assert (nth (Z.to_nat size) (b_next b) 0 = code_value L n) as Ec
      by (rewrite Hnext by lia; reflexivity).
    rewrite Ec.
    set (next := nth_update _ _ _).
    assert (length next = 17%nat) as Hlen' by (unfold next; now rewrite nth_update_length).
    assert (forall l, 1 <= l <= 15 -> nth (Z.to_nat l) next 0 = space_before L 0 (n + 1) l) as Hnext'.
    { intros l Hl. unfold next. rewrite nth_nth_update by lia.
      rewrite space_before_step, Z.sub_0_r by lia. fold size.
      replace (0 <? size) with true by lia. cbn [andb].
      destruct (Nat.eqb_spec (Z.to_nat size) (Z.to_nat l)) as [e|e].
      - replace (size =? l) with true by lia. assert (size = l) as <- by lia.
        rewrite <- Hnext by lia. rewrite Ec. reflexivity.
      - replace (size =? l) with false by lia. rewrite Hnext by assumption. lia. }
    assert (rev_code (Z.to_nat size) (code_value L n) 0 = bval (cw n)) as Erc
      by (symmetry; apply codeword_rev_code; fold size; lia).
    rewrite Erc.
    pose proof (cw_length L n) as Cl. fold size in Cl.
    change TINFL_FAST_LOOKUP_BITS with 10. change (TINFL_FAST_LOOKUP_SIZE - 1) with 1023.
    destruct (size <=? 10) eqn:E10.
    + apply Z.leb_le in E10.
      pose proof (bval_range (cw n)) as Br.
      destruct (fill_look_spec size (Z.lor (Z.shiftl size 9) n) ltac:(lia) 1024 (b_look b) (bval (cw n)) ltac:(lia) ltac:(lia)) as (look' & El & Hl).
      rewrite El. cbn [obind]. eexists labs, _. split; [reflexivity|].
      split; [|split; [|split]]; cbn [b_look b_tree b_free b_next]; auto.
      eapply inv_short; eauto. intros w Hw.
      pose proof (bval_range w) as Bw. rewrite Hw in Bw. change (2 ^ Z.of_nat 10) with 1024 in Bw.
      rewrite Hl by lia. rewrite lor_size_sym by lia. fold size.
      rewrite Cl in Br. rewrite Z2Nat.id in Br by lia.
      assert (0 < 2 ^ size) as P by (apply pow2_pos; lia).
      destruct (bval w mod 2 ^ size =? bval (cw n)) eqn:Em.
      * apply Z.eqb_eq in Em. rewrite <- Em.
        replace (bval w mod 2 ^ size <=? bval w) with true by (symmetry; apply Z.leb_le; apply Z.mod_le; lia).
        rewrite Zminus_mod, Z.mod_mod, Z.sub_diag by lia. rewrite Z.mod_0_l by lia. reflexivity.
      * apply Z.eqb_neq in Em.
        replace ((bval w - bval (cw n)) mod 2 ^ size =? 0) with false; [now rewrite andb_false_r|].
        symmetry. apply Z.eqb_neq. intros Z0. apply Em.
        apply Z.mod_divide in Z0; [|lia]. destruct Z0 as [q Eq].
        replace (bval w) with (bval (cw n) + q * 2 ^ size) by lia.
        rewrite Z_mod_plus_full. apply Z.mod_small. lia.
    + apply Z.leb_gt in E10.
      set (w0 := firstn 10 (cw n)).
      assert (length w0 = 10%nat) as Lw0 by (unfold w0; rewrite firstn_length; lia).
      assert (cw n = w0 ++ skipn 10 (cw n)) as Ew by (symmetry; apply firstn_skipn).
      assert (length (skipn 10 (cw n)) = Z.to_nat (size - 10)) as Ls by (rewrite skipn_length; lia).
      assert (skipn 10 (cw n) <> []) as Hne by (intros H; rewrite H in Ls; cbn in Ls; lia).
      assert (Z.land (bval (cw n)) 1023 = bval w0) as Ei.
      { change 1023 with (Z.ones 10). rewrite Z.land_ones by lia. unfold w0. rewrite bval_firstn by lia. reflexivity. }
      rewrite Ei.
      assert (exists x, Z.shiftr (bval (cw n)) (10 - 1) = bval (x :: skipn 10 (cw n))) as [x Ex].
      { change (10 - 1) with (Z.of_nat 9). rewrite bval_shiftr by lia.
        exists (nth 9 (cw n) false). f_equal.
        destruct (cw n) as [|a0 [|a1 [|a2 [|a3 [|a4 [|a5 [|a6 [|a7 [|a8 [|a9 l]]]]]]]]]]; cbn in Cl; try lia. reflexivity. }
      rewrite Ex.
      replace (Z.to_nat (size - (10 + 1))) with (length (skipn 10 (cw n)) - 1)%nat by lia.
      assert (forall labs1 b1 k,
        inv (n + 1) n labs1 (b_look b1) (b_tree b1) -> b_free b1 = -1 - 2 * len labs1 ->
        nth_error labs1 k = Some w0 -> b_next b1 = next ->
        exists labs' b', (let* y := grow (length (skipn 10 (cw n)) - 1) (bval (x :: skipn 10 (cw n))) (-1 - 2 * Z.of_nat k) b1 in
          let '(r2, cur2, b2) := y in
          let cur3 := cur2 - Z.land (Z.shiftr r2 1) 1 in
          let* t := tree_put (b_tree b2) (- cur3 - 1) n in
          Ok (mk_building (b_next b2) (b_look b2) t (b_free b2))) = Ok b' /\ bst (n + 1) labs' b') as Fin.
      { intros labs1 b1 k I1 F1 K1 N1.
        destruct (grow_spec n Hin (skipn 10 (cw n)) w0 k b1 x labs1 I1 F1 K1 Ew Hne)
          as (labs' & k' & p' & x' & y' & b' & G & Ep & Kp & Ip & Fp & Np).
        rewrite G. cbn [obind]. rewrite bval_cons_shiftr, bval_cons_land.
        assert (k' < length labs')%nat as Hkl by (apply nth_error_Some; congruence).
        pose proof (HB _ _ (iv_labels _ _ _ _ _ _ Ip)) as H288. pose proof (b2z01 y').
        replace (- (-1 - 2 * Z.of_nat k' - b2z y') - 1) with (2 * Z.of_nat k' + b2z y') by lia.
        unfold tree_put, TREE_SIZE.
        replace ((0 <=? 2 * Z.of_nat k' + b2z y') && (2 * Z.of_nat k' + b2z y' <? 576)) with true
          by (symmetry; unfold len in H288; lia).
        cbn [obind]. eexists labs', _. split; [reflexivity|].
        split; [|split; [|split]]; cbn [b_look b_tree b_free b_next].
        - eapply (inv_leaf n labs' (b_look b') (b_tree b') _ k' p' y'); eauto.
          + intros. apply arr_get_other; lia.
          + apply arr_get_same.
        - exact Fp.
        - rewrite Np, N1. exact Hlen'.
        - rewrite Np, N1. exact Hnext'. }
      destruct (in_dec (list_eq_dec bool_dec) w0 labs) as [Hi|Hni].
      * apply In_nth_error in Hi. destruct Hi as [k Hk].
        rewrite (iv_look_node _ _ _ _ _ _ I k w0 Lw0 Hk).
        replace (-1 - 2 * Z.of_nat k =? 0) with false by (symmetry; apply Z.eqb_neq; lia).
        apply (Fin labs); auto. cbn [b_look b_tree]. now apply inv_more.
      * rewrite (iv_look_none _ _ _ _ _ _ I w0 Lw0 Hni).
        2:{ intros s r Hd. eapply prefix_done; eauto. }
        cbn [Z.eqb].
        specialize (Fin (labs ++ [w0]) (mk_building next (arr_set (b_look b) (bval w0) (b_free b)) (b_tree b) (b_free b - 2)) (length labs)).
        replace (-1 - 2 * Z.of_nat (length labs)) with (b_free b) in Fin by exact Hf.
        apply Fin; cbn [b_look b_tree b_free b_next]; auto.
        -- eapply (inv_alloc n labs (b_look b) (b_tree b) _ _ w0 (skipn 10 (cw n))); eauto.
           ++ now apply inv_more.
           ++ lia.
           ++ intros; lia.
           ++ intros w Hw Hnw. pose proof (bval_range w). pose proof (bval_range w0).
              apply arr_get_other; [lia..|]. intros Eq. apply Hnw. apply bval_inj; [lia|auto].
           ++ intros _. rewrite arr_get_same. exact Hf.
           ++ intros k p y Hk Eq. exfalso. apply (f_equal (@length bool)) in Eq. rewrite app_length, Lw0 in Eq.
              destruct (lb_from _ _ _ (iv_labels _ _ _ _ _ _ I) p (nth_error_In _ _ Hk)) as [H10 _].
              cbn [length] in Eq. lia.
        -- rewrite len_app. change (len [w0]) with 1. lia.
        -- apply nth_error_snoc_last.
Qed.
Lemma add_symbols_ok : forall l n labs b, 0 <= n -> n + len l = len L ->
  l = skipn (Z.to_nat n) L -> bst n labs b ->
  exists labs' b', add_symbols n l b = Ok b' /\ bst (len L) labs' b'.
Proof.
  induction l as [|x l IH]; intros n labs b H0 Hn El Hb; cbn [add_symbols].
  - rewrite len_nil, Z.add_0_r in Hn. subst n. eauto.
  - rewrite len_cons in Hn. assert (0 <= len l) by (unfold len; lia).
    assert (code_len L n = x) as Ex.
    { unfold code_len. rewrite <- (firstn_skipn (Z.to_nat n) L), <- El.
      rewrite app_nth2; rewrite firstn_length; unfold len in *; [|lia].
      replace (Z.to_nat n - Nat.min (Z.to_nat n) (length L))%nat with O by lia. reflexivity. }
    destruct (add_symbol_ok n labs b ltac:(lia) Hb) as (labs1 & b1 & E1 & Hb1).
    rewrite Ex in E1. rewrite E1. cbn [obind].
    apply (IH (n + 1) labs1 b1); auto; [lia..|].
    replace (Z.to_nat (n + 1)) with (S (Z.to_nat n)) by lia.
    clear - El. revert El. generalize (Z.to_nat n) as k. intros k. revert x l. generalize L as l0.
    induction k as [|k IHk]; intros l0 x l El; destruct l0; cbn [skipn] in *; try congruence; eauto.
Qed.
End Build.

(** A table for a code. *)
Definition table_ok (L : list Z) (h : huff) : Prop :=
  exists labs, inv L (len L) (len L) labs (hf_look h) (hf_tree h) /\ len labs <= 288.
Theorem build_table_any L : lens_ok L -> valid_code L -> len L <= 288 ->
  exists h, table_ok L h /\ forall s, build_table L s = RDone h s.
Proof.
  intros HL V H288. pose proof (valid_kraft L V) as HK. unfold build_table.
  rewrite total_code_kraft, used_syms_eq by assumption.
  replace (negb (65536 =? 2 * kraft L) && (used_symbols L >? 1)) with false.
  2:{ symmetry. destruct V as [_ [K|U]].
      - unfold kraft. rewrite K. reflexivity.
      - replace (used_symbols L >? 1) with false by lia. apply andb_false_r. }
  destruct (add_symbols_ok L HL HK (fun m labs => labels_bound L m labs HL V H288) ltac:(lia) L 0 []
     (mk_building (next_codes L) arr_empty arr_empty (-1)) ltac:(lia) ltac:(lia) eq_refl (bst_init L)) as (labs & b & E & I & F & _).
  unfold tbind. rewrite E. cbn [tlift res_bind]. unfold tret.
  eexists. split; [|intros s; reflexivity]. exists labs. split; [exact I|].
  eapply labels_bound; eauto. apply I.
Qed.
