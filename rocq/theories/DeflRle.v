(** Code lengths in a dynamic block header (src/miniz/miniz.cpp 1000-1079). *)
From Coq Require Import ZArith List Bool Lia.
From Verif Require Import Base Arr Tinfl Tdefl BaseFacts DeflateSpec BitFacts HuffFacts HuffBuild MinRed DeflHuff DeflBits DeflLz DeflLz3.
Import ListNotations.
Open Scope Z_scope.

Inductive item := One (x : Z) | Rep (e : Z) | Zeros (e : Z) | Many (e : Z).
Definition item_code (i : item) : Z := match i with One x => x | Rep _ => 16 | Zeros _ => 17 | Many _ => 18 end.
Definition item_codes (i : item) : list Z :=
  match i with One x => [x] | Rep e => [16; e] | Zeros e => [17; e] | Many e => [18; e] end.
Definition item_bits (CL : list Z) (i : item) : list bool :=
  match i with
  | One x => codeword CL x
  | Rep e => codeword CL 16 ++ lsb_bits 2 e
  | Zeros e => codeword CL 17 ++ lsb_bits 3 e
  | Many e => codeword CL 18 ++ lsb_bits 7 e
  end.
Definition item_ok (i : item) : Prop :=
  match i with One x => 0 <= x <= 15 | Rep e => 0 <= e < 4 | Zeros e => 0 <= e < 8 | Many e => 0 <= e < 128 end.
Inductive packs : list item -> list Z -> Prop :=
| packs_nil : packs [] []
| packs_one its l x : packs its l -> 0 <= x <= 15 -> packs (its ++ [One x]) (l ++ [x])
| packs_rep its l x e : packs its (l ++ [x]) -> 0 <= e < 4 ->
    packs (its ++ [Rep e]) ((l ++ [x]) ++ zrepeat x (3 + e))
| packs_zeros its l e : packs its l -> 0 <= e < 8 -> packs (its ++ [Zeros e]) (l ++ zrepeat 0 (3 + e))
| packs_many its l e : packs its l -> 0 <= e < 128 -> packs (its ++ [Many e]) (l ++ zrepeat 0 (11 + e)).

Lemma packs_len its l : packs its l -> len its <= len l.
Proof.
  induction 1; rewrite ?len_app, ?len_zrepeat, ?len_cons, ?len_nil in *; lia.
Qed.
Lemma packs_items its l : packs its l -> Forall item_ok its.
Proof.
  induction 1; [constructor|..]; apply Forall_app; (split; [assumption|constructor; [assumption|constructor]]).
Qed.
Lemma packs_bits CL its l : packs its l -> Forall (fun i => in_code CL (item_code i)) its ->
  forall b r, lengths_bits CL l b r -> lengths_bits CL [] (flat_map (item_bits CL) its ++ b) r.
Proof.
  induction 1; intros F b r L.
  - assumption.
  - apply Forall_app in F. destruct F as [F1 F2]. inversion_clear F2. rewrite flat_map_app, <- app_assoc.
    apply IHpacks; [assumption|]. cbn [flat_map item_bits]. rewrite app_nil_r. now apply Lengths_one.
  - apply Forall_app in F. destruct F as [F1 F2]. inversion_clear F2. rewrite flat_map_app, <- app_assoc.
    apply IHpacks; [assumption|]. cbn [flat_map item_bits]. rewrite app_nil_r, <- app_assoc. apply Lengths_repeat; try assumption.
    now rewrite app_assoc.
  - apply Forall_app in F. destruct F as [F1 F2]. inversion_clear F2. rewrite flat_map_app, <- app_assoc.
    apply IHpacks; [assumption|]. cbn [flat_map item_bits]. rewrite app_nil_r, <- app_assoc. now apply Lengths_zeros.
  - apply Forall_app in F. destruct F as [F1 F2]. inversion_clear F2. rewrite flat_map_app, <- app_assoc.
    apply IHpacks; [assumption|]. cbn [flat_map item_bits]. rewrite app_nil_r, <- app_assoc. now apply Lengths_many_zeros.
Qed.

(** ** Counting the items *)
Record cnt_ok (its : list item) (cnt : list Z) : Prop := {
  co_len : len cnt = 19;
  co_pos : Forall (fun x => 0 <= x) cnt;
  co_sum : zsum cnt = len its;
  co_in : Forall (fun i => 0 < at_index cnt (item_code i)) its
}.
Lemma cnt_add its cnt s k new : cnt_ok its cnt -> 0 <= s < 19 -> len its + k <= 65535 -> 0 <= k -> len new = k ->
  Forall (fun i => item_code i = s) new ->
  cnt_ok (its ++ new) (nth_update cnt (Z.to_nat s) (u16 (at_index cnt s + k))).
Proof.
  intros [] Hs Hk Hk0 HL HN. pose proof (nth_le_zsum cnt (Z.to_nat s) co_pos0) as B. fold (at_index cnt s) in B.
  rewrite u16_small by lia. assert (Z.to_nat s < length cnt)%nat as SL by (unfold len in co_len0; lia). constructor.
  - unfold len in *. now rewrite nth_update_length.
  - apply Forall_update; [assumption|lia].
  - rewrite zsum_update by assumption. rewrite len_app. unfold at_index in *. lia.
  - apply Forall_forall. intros i Hi. apply in_app_or in Hi. unfold at_index in *. rewrite nth_nth_update by assumption.
    destruct Hi as [Hi|Hi].
    + pose proof (proj1 (Forall_forall _ _) co_in0 i Hi) as P. cbv beta in P.
      destruct (Nat.eqb_spec (Z.to_nat s) (Z.to_nat (item_code i))) as [E|E]; [rewrite <- E in P|]; lia.
    + rewrite (proj1 (Forall_forall _ _) HN i Hi), Nat.eqb_refl. destruct new as [|y new]; [destruct Hi|].
      rewrite len_cons in HL. pose proof (len_nonneg _ new). lia.
Qed.

(** ** The run-length coder *)
Record rle_base (its : list item) (done : list Z) (r : rle) : Prop := {
  rb_packs : packs its done;
  rb_packed : r_packed r = rev (flat_map item_codes its);
  rb_cnt : cnt_ok its (r_count r)
}.
Lemma zrepeat_repeat {A} (x : A) n : zrepeat x n = repeat x (Z.to_nat n).
Proof. reflexivity. Qed.
Lemma packs_ones its l x k : packs its l -> 0 <= x <= 15 -> packs (its ++ repeat (One x) k) (l ++ repeat x k).
Proof.
  intros P Hx. revert its l P. induction k as [|k IH]; intros its l P; cbn [repeat]; [now rewrite !app_nil_r|].
  change (One x :: repeat (One x) k) with ([One x] ++ repeat (One x) k). change (x :: repeat x k) with ([x] ++ repeat x k).
  rewrite !app_assoc. apply IH. now apply packs_one.
Qed.
Lemma ones_codes x k : flat_map item_codes (repeat (One x) k) = repeat x k.
Proof. induction k as [|k IH]; [reflexivity|]. cbn [repeat flat_map item_codes app]. now rewrite IH. Qed.
Lemma rev_repeat {A} (x : A) k : rev (repeat x k) = repeat x k.
Proof.
  induction k as [|k IH]; [reflexivity|]. cbn [repeat rev]. rewrite IH. clear. induction k as [|k IH]; [reflexivity|].
  cbn [repeat app]. now rewrite IH.
Qed.
Lemma codes_repeat_one x k : Forall (fun i => item_code i = x) (repeat (One x) k).
Proof. induction k; cbn [repeat]; constructor; auto. Qed.
Lemma rle_prev_ok its done prev r : rle_base its done r -> 0 <= r_rep r <= 6 -> len done <= 1000 ->
  (r_rep r = 0 \/ (1 <= prev <= 15 /\ exists d0, done = d0 ++ [prev])) ->
  exists its', rle_base its' (done ++ zrepeat prev (r_rep r)) (rle_prev prev r) /\
    r_z (rle_prev prev r) = r_z r /\ r_rep (rle_prev prev r) = 0.
Proof.
  intros [] HR HL HP. pose proof (packs_len _ _ rb_packs0) as PL. unfold rle_prev.
  destruct (Z.eqb_spec (r_rep r) 0) as [E|E].
  - exists its. rewrite E. rewrite zrepeat_repeat. cbn [Z.to_nat repeat]. rewrite app_nil_r. now constructor.
  - destruct HP as [HP|(HP & d0 & HD)]; [congruence|]. destruct (Z.ltb_spec (r_rep r) 3) as [H3|H3].
    + exists (its ++ repeat (One prev) (Z.to_nat (r_rep r))). split; [|split; reflexivity]. constructor; cbn [r_packed r_count].
      * rewrite zrepeat_repeat. apply packs_ones; [assumption|lia].
      * rewrite flat_map_app, rev_app_distr, ones_codes, rev_repeat. now rewrite rb_packed0.
      * apply cnt_add; try assumption; try lia; [rewrite len_repeat; lia|apply codes_repeat_one].
    + exists (its ++ [Rep (r_rep r - 3)]). split; [|split; reflexivity]. constructor; cbn [r_packed r_count].
      * rewrite HD in rb_packs0 |- *. replace (r_rep r) with (3 + (r_rep r - 3)) at 2 by lia. apply packs_rep; [assumption|lia].
      * rewrite flat_map_app, rev_app_distr. cbn [flat_map item_codes app rev]. rewrite rb_packed0.
        unfold u8. rewrite Z.mod_small by lia. reflexivity.
      * change 16%nat with (Z.to_nat 16). apply cnt_add; try assumption; try lia; [reflexivity|repeat constructor].
Qed.
Lemma rle_zero_ok its done r : rle_base its done r -> 0 <= r_z r <= 138 -> len done <= 1000 ->
  exists its', rle_base its' (done ++ zrepeat 0 (r_z r)) (rle_zero r) /\
    r_z (rle_zero r) = 0 /\ r_rep (rle_zero r) = r_rep r.
Proof.
  intros [] HR HL. pose proof (packs_len _ _ rb_packs0) as PL. unfold rle_zero.
  destruct (Z.eqb_spec (r_z r) 0) as [E|E].
  - exists its. rewrite E. rewrite zrepeat_repeat. cbn [Z.to_nat repeat]. rewrite app_nil_r. now constructor.
  - destruct (Z.ltb_spec (r_z r) 3) as [H3|H3].
    + exists (its ++ repeat (One 0) (Z.to_nat (r_z r))). split; [|split; reflexivity]. constructor; cbn [r_packed r_count].
      * rewrite zrepeat_repeat. apply packs_ones; [assumption|lia].
      * rewrite flat_map_app, rev_app_distr, ones_codes, rev_repeat. now rewrite rb_packed0.
      * change 0%nat with (Z.to_nat 0). apply cnt_add; try assumption; try lia; [rewrite len_repeat; lia|apply codes_repeat_one].
    + destruct (Z.leb_spec (r_z r) 10) as [H10|H10].
      * exists (its ++ [Zeros (r_z r - 3)]). split; [|split; reflexivity]. constructor; cbn [r_packed r_count].
        -- replace (r_z r) with (3 + (r_z r - 3)) at 2 by lia. apply packs_zeros; [assumption|lia].
        -- rewrite flat_map_app, rev_app_distr. cbn [flat_map item_codes app rev]. rewrite rb_packed0.
           unfold u8. rewrite Z.mod_small by lia. reflexivity.
        -- change 17%nat with (Z.to_nat 17). apply cnt_add; try assumption; try lia; [reflexivity|repeat constructor].
      * exists (its ++ [Many (r_z r - 11)]). split; [|split; reflexivity]. constructor; cbn [r_packed r_count].
        -- replace (r_z r) with (11 + (r_z r - 11)) at 2 by lia. apply packs_many; [assumption|lia].
        -- rewrite flat_map_app, rev_app_distr. cbn [flat_map item_codes app rev]. rewrite rb_packed0.
           unfold u8. rewrite Z.mod_small by lia. reflexivity.
        -- change 18%nat with (Z.to_nat 18). apply cnt_add; try assumption; try lia; [reflexivity|repeat constructor].
Qed.
Record rle_inv (l : list Z) (prev : Z) (r : rle) (its : list item) (done : list Z) : Prop := {
  ri_base : rle_base its done r;
  ri_split : l = done ++ zrepeat 0 (r_z r) ++ zrepeat prev (r_rep r);
  ri_z : 0 <= r_z r < 138;
  ri_rep : 0 <= r_rep r < 6;
  ri_prev : (1 <= prev <= 15 /\ r_z r = 0 /\ exists d0, done = d0 ++ [prev]) \/ (r_rep r = 0 /\ (prev = 0 \/ prev = 255))
}.
Lemma zrepeat_0 {A} (x : A) : zrepeat x 0 = [].
Proof. reflexivity. Qed.
Lemma zrepeat_snoc {A} (x : A) n : 0 <= n -> zrepeat x (n + 1) = zrepeat x n ++ [x].
Proof.
  intros. rewrite !zrepeat_repeat. replace (Z.to_nat (n + 1)) with (Z.to_nat n + 1)%nat by lia. now rewrite repeat_app.
Qed.
Lemma zrepeat_last {A} (x : A) n : 0 < n -> zrepeat x n = zrepeat x (n - 1) ++ [x].
Proof. intros. replace n with (n - 1 + 1) at 1 by lia. apply zrepeat_snoc. lia. Qed.
Lemma rle_loop_ok l : forall l0 prev r its done, rle_inv l0 prev r its done -> Forall (fun x => 0 <= x <= 15) l ->
  len l0 + len l <= 1000 ->
  exists r' prev' its' done', rle_loop l prev r = (r', prev') /\ rle_inv (l0 ++ l) prev' r' its' done'.
Proof.
  induction l as [|c l IH]; intros l0 prev r its done I F HL.
  - exists r, prev, its, done. split; [reflexivity|]. now rewrite app_nil_r.
  - inversion_clear F as [|? ? Hc F']. rewrite len_cons in HL. cbn [rle_loop].
    replace (l0 ++ c :: l) with ((l0 ++ [c]) ++ l) by (now rewrite <- app_assoc).
    assert (len l0 = len done + r_z r + r_rep r) as LD.
    { destruct I. rewrite ri_split0, !len_app, !len_zrepeat. lia. }
    pose proof (len_nonneg _ l) as LN. pose proof (len_nonneg _ done) as LN2. destruct I.
    match goal with |- context [rle_loop l c ?x] => set (r2 := x) end.
    assert (exists its2 done2, rle_inv (l0 ++ [c]) c r2 its2 done2) as (its2 & done2 & I2).
    2:{ apply (IH _ _ _ its2 done2); [assumption|assumption|]. rewrite len_app, len_cons, len_nil. lia. }
    unfold r2. clear r2 IH. destruct (Z.eqb_spec c 0) as [E0|E0].
    + subst c. destruct (rle_prev_ok its done prev r) as (its1 & B1 & Z1 & R1); [assumption|lia|lia|tauto|].
      set (r1 := rle_prev prev r) in *. cbn [r_z].
      assert (l0 = (done ++ zrepeat prev (r_rep r)) ++ zrepeat 0 (r_z r)) as SP.
      { rewrite ri_split0. destruct ri_prev0 as [(_ & Ez & _)|(Er & _)].
        - rewrite Ez, zrepeat_0. cbn [app]. now rewrite app_nil_r.
        - rewrite Er, zrepeat_0. now rewrite !app_nil_r. }
      set (rr := mk_rle (r_packed r1) (r_count r1) (r_z r1 + 1) (r_rep r1)).
      assert (rle_base its1 (done ++ zrepeat prev (r_rep r)) rr) as B2 by (destruct B1; now constructor).
      rewrite Z1. destruct (Z.eqb_spec (r_z r + 1) 138) as [E138|E138].
      * destruct (rle_zero_ok _ _ rr B2) as (its3 & B3 & Z3 & R3).
        { cbn [rr r_z]. lia. } { rewrite len_app, len_zrepeat. lia. }
        eexists its3, _. constructor; [exact B3| | | |].
        -- rewrite Z3, R3. cbn [rr r_rep r_z]. rewrite R1, Z1. rewrite !zrepeat_0, !app_nil_r. rewrite zrepeat_snoc by lia.
           rewrite SP. now rewrite !app_assoc.
        -- rewrite Z3. lia.
        -- rewrite R3. cbn [rr r_rep]. lia.
        -- right. rewrite R3. cbn [rr r_rep]. split; [assumption|now left].
      * exists its1, (done ++ zrepeat prev (r_rep r)). constructor; cbn [rr r_z r_rep]; [exact B2| |lia|lia|].
        -- rewrite R1, Z1, zrepeat_0, app_nil_r. rewrite zrepeat_snoc by lia. rewrite SP. now rewrite !app_assoc.
        -- right. split; [assumption|now left].
    + destruct (rle_zero_ok its done r) as (its1 & B1 & Z1 & R1); [assumption|lia|lia|].
      set (r1 := rle_zero r) in *. destruct (Z.eqb_spec c prev) as [EP|EP]; cbn [negb].
      * subst c. destruct ri_prev0 as [(HP & Ez & d0 & HD)|(Er & [|])]; [|lia|lia].
        rewrite Ez, zrepeat_0, app_nil_r in B1. rewrite Ez, zrepeat_0 in ri_split0. cbn [app] in ri_split0.
        set (rr := mk_rle (r_packed r1) (r_count r1) (r_z r1) (r_rep r1 + 1)). change (r_rep rr) with (r_rep r1 + 1).
        assert (rle_base its1 done rr) as B2 by (destruct B1; now constructor).
        rewrite R1. destruct (Z.eqb_spec (r_rep r + 1) 6) as [E6|E6].
        -- destruct (rle_prev_ok its1 done prev rr) as (its3 & B3 & Z3 & R3); [assumption|cbn [rr r_rep]; lia|lia|right; eauto|].
           eexists its3, _. cbn [rr r_rep] in B3. constructor; [exact B3| | | |].
           ++ rewrite Z3, R3. cbn [rr r_z]. rewrite Z1, !zrepeat_0, !app_nil_r. rewrite R1, zrepeat_snoc by lia. rewrite ri_split0. now rewrite !app_assoc.
           ++ rewrite Z3. cbn [rr r_z]. lia.
           ++ rewrite R3. lia.
           ++ left. rewrite Z3. cbn [rr r_z]. split; [assumption|]. split; [assumption|].
              exists (done ++ zrepeat prev (r_rep r)). rewrite R1, zrepeat_snoc by lia. now rewrite app_assoc.
        -- exists its1, done. constructor; cbn [rr r_z r_rep]; [exact B2| |lia|lia|].
           ++ rewrite Z1, R1, zrepeat_0. cbn [app]. rewrite zrepeat_snoc by lia. rewrite ri_split0. now rewrite app_assoc.
           ++ left. split; [assumption|]. split; [assumption|eauto].
      * assert (exists its2, rle_base its2 l0 (rle_prev prev r1) /\ r_z (rle_prev prev r1) = 0 /\ r_rep (rle_prev prev r1) = 0) as (its2 & B2 & Z2 & R2).
        { destruct ri_prev0 as [(HP & Ez & d0 & HD)|(Er & HP)].
          - rewrite Ez, zrepeat_0, app_nil_r in B1. rewrite Ez, zrepeat_0 in ri_split0. cbn [app] in ri_split0.
            destruct (rle_prev_ok its1 done prev r1) as (its3 & B3 & Z3 & R3); [assumption|lia|lia|right; eauto|].
            exists its3. rewrite R1 in B3. rewrite ri_split0. split; [assumption|]. split; [lia|assumption].
          - destruct (rle_prev_ok its1 _ prev r1 B1) as (its3 & B3 & Z3 & R3); [lia|rewrite len_app, len_zrepeat; lia|left; lia|].
            exists its3. rewrite R1, Er, zrepeat_0, app_nil_r in B3. rewrite Er, zrepeat_0, app_nil_r in ri_split0.
            rewrite ri_split0. split; [assumption|]. split; [lia|assumption]. }
        set (rr := rle_prev prev r1) in *. exists (its2 ++ [One c]), (l0 ++ [c]).
        pose proof (packs_len _ _ (rb_packs _ _ _ B2)) as PL2.
        constructor; cbn [r_z r_rep].
        -- destruct B2. constructor; cbn [r_packed r_count].
           ++ apply packs_one; [assumption|lia].
           ++ rewrite flat_map_app, rev_app_distr. cbn [flat_map item_codes app rev]. now rewrite rb_packed0.
           ++ apply cnt_add; try assumption; try lia; [reflexivity|repeat constructor].
        -- rewrite Z2, R2, !zrepeat_0. now rewrite !app_nil_r.
        -- lia.
        -- lia.
        -- left. split; [lia|]. split; [assumption|]. now exists l0.
Qed.
Theorem pack_sizes_ok l : Forall (fun x => 0 <= x <= 15) l -> len l <= 1000 ->
  exists its cnt, pack_sizes l = (flat_map item_codes its, cnt) /\ packs its l /\ cnt_ok its cnt.
Proof.
  intros F HL. unfold pack_sizes.
  destruct (rle_loop_ok l [] 255 (mk_rle [] (repeat 0 19) 0 0) [] []) as (r & prev & its & done & E & I).
  - constructor; cbn [r_z r_rep]; [|reflexivity|lia|lia|right; auto].
    constructor; [constructor|reflexivity|]. constructor; [reflexivity| |reflexivity|constructor].
    apply Forall_forall. intros x Hx. apply repeat_spec in Hx. cbn in Hx. lia.
  - assumption.
  - rewrite len_nil. lia.
  - rewrite E. destruct I. cbn [app] in ri_split0.
    assert (len l = len done + r_z r + r_rep r) as LD by (rewrite ri_split0, !len_app, !len_zrepeat; lia).
    pose proof (len_nonneg _ done).
    destruct (Z.eqb_spec (r_rep r) 0) as [ER|ER]; cbn [negb].
    + destruct (rle_zero_ok its done r) as (its1 & B1 & Z1 & R1); [assumption|lia|lia|].
      destruct B1. exists its1, (r_count (rle_zero r)). rewrite rb_packed0, rev_involutive. split; [reflexivity|].
      rewrite ER, zrepeat_0, app_nil_r in ri_split0. rewrite ri_split0. now split.
    + destruct ri_prev0 as [(HP & Ez & d0 & HD)|(Er & HP)]; [|lia].
      destruct (rle_prev_ok its done prev r) as (its1 & B1 & Z1 & R1); [assumption|lia|lia|right; eauto|].
      destruct B1. exists its1, (r_count (rle_prev prev r)). rewrite rb_packed0, rev_involutive. split; [reflexivity|].
      rewrite Ez, zrepeat_0 in ri_split0. cbn [app] in ri_split0. rewrite ri_split0. now split.
Qed.
