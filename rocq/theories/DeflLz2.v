(** Reading the LZ code buffer back (src/miniz/miniz.cpp 1102-1189). *)
From Coq Require Import ZArith List Bool Lia.
From Verif Require Import Base Arr Tinfl Tdefl BaseFacts DeflateSpec BitFacts HuffFacts HuffBuild MinRed DeflHuff DeflBits DeflLz.
Import ListNotations.
Open Scope Z_scope.

Fixpoint holds (buf : arr) (i : Z) (l : bytes) : Prop :=
  match l with [] => True | x :: t => arr_get 0 buf i = x /\ holds buf (i + 1) t end.
Lemma holds_app buf l1 l2 : forall i, holds buf i (l1 ++ l2) <-> holds buf i l1 /\ holds buf (i + len l1) l2.
Proof.
  induction l1 as [|x l1 IH]; intros i; cbn [app holds].
  - rewrite len_nil, Z.add_0_r. tauto.
  - rewrite IH, len_cons. replace (i + 1 + len l1) with (i + (1 + len l1)) by lia. tauto.
Qed.
Lemma holds_set_other buf i j x l : 0 <= i -> 0 <= j -> i < j \/ j + len l <= i ->
  (holds (arr_set buf i x) j l <-> holds buf j l).
Proof.
  revert j. induction l as [|y l IH]; intros j Hi Hj H; cbn [holds]; [tauto|].
  rewrite len_cons in H. pose proof (len_nonneg _ l). rewrite arr_get_other by lia. rewrite IH by lia. tauto.
Qed.

Definition flags_of (g : list token) : list bool := map is_copy g.
Definition group_bytes (g : list token) : bytes := bval (flags_of g) :: flat_map tok_bytes g.
Definition layout (gs : list (list token)) : bytes := flat_map group_bytes gs.
Fixpoint groups_ok (gs : list (list token)) : Prop :=
  match gs with
  | [] => True
  | g :: t => (1 <= length g <= 8)%nat /\ (t = [] \/ length g = 8%nat) /\ groups_ok t
  end.

Lemma bval_land2 a b w : Z.land (bval (a :: b :: w)) 2 =? 0 = negb b.
Proof.
  assert (forall v, Z.land v 2 = Z.shiftl (Z.land (Z.shiftr v 1) 1) 1) as E.
  { intros v. apply Z.bits_inj'. intros n Hn. rewrite Z.land_spec. change 2 with (2 ^ 1) at 1.
    rewrite Z.pow2_bits_eqb by lia. destruct (Z.eqb_spec 1 n) as [<-|Hne].
    - rewrite Z.shiftl_spec, Z.land_spec, Z.shiftr_spec by lia. reflexivity.
    - rewrite andb_false_r. destruct (Z.eq_dec n 0) as [->|Hn0].
      + now rewrite Z.shiftl_spec_low by lia.
      + rewrite Z.shiftl_spec, Z.land_spec by lia.
        rewrite (Z.bits_above_log2 1 (n - 1)) by (cbn; lia). now rewrite andb_false_r. }
  rewrite E, bval_cons_shiftr, bval_cons_land. destruct b; reflexivity.
Qed.
Lemma bval_sentinel w : w <> [] -> bval (w ++ [true]) =? 1 = false.
Proof.
  intros H. rewrite bval_app. pose proof (bval_range w). destruct w as [|x w]; [congruence|].
  cbn [length]. rewrite pow2_succ. cbn [bval b2z]. pose proof (pow2_pos (Z.of_nat (length w)) ltac:(lia)).
  apply Z.eqb_neq. pose proof (b2z_range x). pose proof (bval_range w). lia.
Qed.
Lemma flags_length g : length (flags_of g) = length g.
Proof. apply map_length. Qed.
Lemma load_flags g : (length g <= 8)%nat ->
  Z.lor (bval (flags_of g)) 256 = bval (flags_of g ++ repeat false (8 - length g) ++ [true]).
Proof.
  intros H. rewrite app_assoc, bval_app. cbn [bval b2z]. rewrite app_length, repeat_length. rewrite flags_length. replace (length g + (8 - length g))%nat with 8%nat by lia.
  change (2 ^ Z.of_nat 8) with 256. rewrite bval_app.
  assert (forall n, bval (repeat false n) = 0) as Z0 by (induction n; cbn [repeat bval b2z]; lia). rewrite Z0.
  pose proof (bval_range (flags_of g)) as R. rewrite flags_length in R.
  assert (2 ^ Z.of_nat (length g) <= 2 ^ 8) by (apply Z.pow_le_mono_r; lia). change (2 ^ 8) with 256 in *.
  change 256 with (Z.shiftl 1 8) at 1. rewrite lor_shift by lia. lia.
Qed.
Lemma lz_at_ok buf p x l : holds buf p (x :: l) -> 0 <= p < LZ_CODE_BUF_SIZE -> lz_at buf p = Ok x.
Proof.
  intros [E _] H. unfold lz_at. replace ((0 <=? p) && (p <? LZ_CODE_BUF_SIZE)) with true by lia. now rewrite E.
Qed.
Lemma len_tok_bytes t : len (tok_bytes t) = if is_copy t then 3 else 1.
Proof. destruct t; reflexivity. Qed.

Definition lz_result (o : obuf) (bits : list bool) (r : option obuf) : Prop :=
  match r with
  | Some o' => owf o' /\ ob_nb o' < 8 /\ obits o' = obits o ++ bits /\ ob_n o <= ob_n o' /\
               8 * ob_n o' + ob_nb o' = 8 * ob_n o + ob_nb o + len bits
  | None => 8 * OUT_LIMIT <= 8 * ob_n o + ob_nb o + len bits
  end.

Section Reader.
Variables (t : tables) (buf : arr) (end_ : Z).
Hypothesis T : tables_ok t.
Hypothesis E64 : end_ <= LZ_CODE_BUF_SIZE.
Let bitsof := toksb (t_sizes0 t) (t_sizes1 t).

(** state before an iteration: tokens R of the group being read, then the groups gs *)
Record rd (R : list token) (gs : list (list token)) (p flags : Z) (pad : nat) : Prop := {
  rd_ok : Forall tok_ok (R ++ concat gs);
  rd_in : Forall (tok_in (t_sizes0 t) (t_sizes1 t)) (R ++ concat gs);
  rd_gs : groups_ok gs;
  rd_pad : gs = [] \/ pad = 0%nat;
  rd_p : 0 <= p;
  rd_flags : flags = bval (flags_of R ++ repeat false pad ++ [true]);
  rd_holds : holds buf p (flat_map tok_bytes R ++ layout gs);
  rd_end : end_ = p + len (flat_map tok_bytes R ++ layout gs)
}.
Lemma rd_load g gs p pad : rd [] (g :: gs) p 1 pad ->
  rd g gs (p + 1) (Z.lor (bval (flags_of g)) 256) (8 - length g) /\ g <> [] /\ lz_at buf p = Ok (bval (flags_of g)).
Proof.
  intros []. cbn [app concat flat_map layout] in *. destruct rd_gs0 as (G1 & G2 & G3).
  pose proof (len_nonneg _ (flat_map tok_bytes g ++ layout gs)) as NN.
  assert (len (group_bytes g ++ flat_map group_bytes gs) = 1 + len (flat_map tok_bytes g ++ layout gs)) as EL.
  { unfold group_bytes at 1. cbn [app]. rewrite len_cons. reflexivity. }
  split; [|split].
  - constructor; try assumption; [destruct G2; [now left|right; lia]|lia|apply load_flags; lia|apply rd_holds0|].
    lia.
  - intros ->. cbn in G1. lia.
  - unfold group_bytes in rd_holds0 at 1. cbn [app] in rd_holds0.
    eapply lz_at_ok; [exact rd_holds0|]. lia.
Qed.
Lemma rd_step tk R gs p flags pad : rd (tk :: R) gs p flags pad ->
  rd R gs (p + len (tok_bytes tk)) (Z.shiftr flags 1) pad.
Proof.
  intros []. cbn [app concat flat_map flags_of map] in *. rewrite <- app_assoc in *. rewrite len_app in rd_end0.
  rewrite holds_app in rd_holds0. inversion_clear rd_ok0. inversion_clear rd_in0.
  pose proof (len_nonneg _ (tok_bytes tk)).
  constructor; try assumption; [lia| |tauto|lia]. rewrite rd_flags0. apply bval_cons_shiftr.
Qed.
Lemma rd_bit tk R gs p flags pad : rd (tk :: R) gs p flags pad -> (Z.land flags 1 =? 0) = negb (is_copy tk).
Proof.
  intros []. subst flags. cbn [flags_of map app]. rewrite bval_cons_land. destruct (is_copy tk); reflexivity.
Qed.
Lemma rd_next_lit tk R gs p flags pad : rd (tk :: R) gs p flags pad -> is_copy tk = false ->
  ((Z.land flags 2 =? 0) && (p + 1 <? end_))%bool =
  match R with tk2 :: _ => negb (is_copy tk2) | [] => false end.
Proof.
  intros I E. destruct (rd_step _ _ _ _ _ _ I) as [_ _ _ _ _ _ _ RE]. rewrite len_tok_bytes, E in RE.
  destruct I as [_ _ IG IP _ IF _ _]. subst flags. cbn [flags_of map app]. destruct R as [|tk2 R].
  - cbn [map app]. destruct pad as [|pad].
    + cbn [repeat app]. now rewrite bval_land2.
    + destruct IP as [->|IP]; [|discriminate]. cbn [flat_map layout app] in RE. rewrite len_nil in RE.
      replace (p + 1 <? end_) with false by lia. apply andb_false_r.
  - cbn [map app]. rewrite bval_land2.
    cbn [flat_map] in RE. rewrite !len_app, len_tok_bytes in RE. pose proof (len_nonneg _ (flat_map tok_bytes R)).
    pose proof (len_nonneg _ (layout gs)). replace (p + 1 <? end_) with true by (destruct (is_copy tk2); lia).
    apply andb_true_r.
Qed.
Lemma rd_at tk R gs p flags pad : rd (tk :: R) gs p flags pad ->
  match tk with
  | Lit c => lz_at buf p = Ok c
  | Copy n d => lz_at buf p = Ok (n - 3) /\ lz_at buf (p + 1) = Ok ((d - 1) mod 256)
                /\ lz_at buf (p + 2) = Ok ((d - 1) / 256)
  end.
Proof.
  intros [_ _ _ _ IP _ IH IE]. cbn [flat_map] in *. rewrite <- app_assoc in *. rewrite len_app, len_tok_bytes in IE.
  pose proof (len_nonneg _ (flat_map tok_bytes R ++ layout gs)).
  destruct tk as [c|n d]; cbn [tok_bytes app is_copy] in *.
  - eapply lz_at_ok; [exact IH|lia].
  - split; [eapply lz_at_ok; [exact IH|lia]|]. destruct IH as [_ IH].
    split; [eapply lz_at_ok; [exact IH|lia]|]. destruct IH as [_ IH]. replace (p + 1 + 1) with (p + 2) in IH by lia.
    eapply lz_at_ok; [exact IH|lia].
Qed.

(** the tokens taken by one iteration *)
Definition one_turn (flags1 p1 : Z) (x0 : Z * Z) : outcome ((Z * Z) * Z * Z) :=
  if negb (Z.land flags1 1 =? 0) then
    let* l := lz_at buf p1 in
    let* a := lz_at buf (p1 + 1) in
    let* b := lz_at buf (p1 + 2) in
    Ok (match_fast t l (a + 256 * b) x0, flags1, p1 + 3)
  else
    let* c := lz_at buf p1 in
    let x1 := lit_fast t c x0 in
    if (Z.land flags1 2 =? 0) && (p1 + 1 <? end_) then
      let flags2 := Z.shiftr flags1 1 in
      let* c := lz_at buf (p1 + 1) in
      let x2 := lit_fast t c x1 in
      if (Z.land flags2 2 =? 0) && (p1 + 2 <? end_) then
        let* c := lz_at buf (p1 + 2) in
        Ok (lit_fast t c x2, Z.shiftr flags2 1, p1 + 3)
      else Ok (x2, flags2, p1 + 2)
    else Ok (x1, flags1, p1 + 1).
Lemma one_turn_ok R gs p flags pad x bits : rd R gs p flags pad -> R <> [] -> fast_ok x bits -> len bits <= 7 ->
  exists x' flags' p' S R', R = S ++ R' /\ S <> [] /\ one_turn flags p x = Ok (x', flags', p') /\
    fast_ok x' (bits ++ bitsof S) /\ rd R' gs p' (Z.shiftr flags' 1) pad /\ p < p'.
Proof.
  intros I NE F H7. destruct R as [|tk R]; [congruence|]. unfold one_turn. rewrite (rd_bit _ _ _ _ _ _ I), negb_involutive.
  pose proof (rd_at _ _ _ _ _ _ I) as A. pose proof (rd_step _ _ _ _ _ _ I) as ST. rewrite len_tok_bytes in ST.
  pose proof (rd_ok _ _ _ _ _ I) as OK. pose proof (rd_in _ _ _ _ _ I) as IN. cbn [app] in OK, IN.
  inversion OK as [|? ? OK1 OK2]; subst. inversion IN as [|? ? IN1 IN2]; subst.
  destruct tk as [c|n d]; cbn [is_copy] in *.
  2:{ destruct A as (A1 & A2 & A3). rewrite A1, A2, A3. cbn [obind].
      replace ((d - 1) mod 256 + 256 * ((d - 1) / 256)) with (d - 1) by (pose proof (Z.div_mod (d - 1) 256); lia).
      exists (match_fast t (n - 3) (d - 1) x), flags, (p + 3), [Copy n d], R.
      split; [reflexivity|]. split; [discriminate|]. split; [reflexivity|].
      split; [|split; [exact ST|lia]]. unfold bitsof. cbn [toksb flat_map]. rewrite app_nil_r. now apply match_fast_ok. }
  rewrite A. cbn [obind]. rewrite (rd_next_lit _ _ _ _ _ _ I eq_refl).
  assert (fast_ok (lit_fast t c x) (bits ++ tokb (t_sizes0 t) (t_sizes1 t) (Lit c))) as F1 by (apply lit_fast_ok; try assumption; lia).
  pose proof (tokb_max _ _ _ OK1 (to_max0 _ T) (to_max1 _ T)) as M1. cbn [is_copy] in M1.
  destruct R as [|[c2|n2 d2] R]; cbn [is_copy negb].
  - exists (lit_fast t c x), flags, (p + 1), [Lit c], []. split; [reflexivity|]. split; [discriminate|]. split; [reflexivity|].
    split; [|split; [exact ST|lia]]. unfold bitsof. cbn [toksb flat_map]. rewrite app_nil_r. exact F1.
  - pose proof (rd_at _ _ _ _ _ _ ST) as A2. cbn beta iota in A2. rewrite A2. cbn [obind].
    pose proof (rd_step _ _ _ _ _ _ ST) as ST2. rewrite len_tok_bytes in ST2. cbn [is_copy] in ST2.
    replace (p + 2) with (p + 1 + 1) by lia.
    rewrite (rd_next_lit _ _ _ _ _ _ ST eq_refl). cbn [app] in OK2, IN2.
    inversion OK2 as [|? ? OK3 OK4]; subst. inversion IN2 as [|? ? IN3 IN4]; subst.
    assert (fast_ok (lit_fast t c2 (lit_fast t c x)) ((bits ++ tokb (t_sizes0 t) (t_sizes1 t) (Lit c)) ++ tokb (t_sizes0 t) (t_sizes1 t) (Lit c2))) as F2
      by (apply lit_fast_ok; try assumption; rewrite len_app; lia).
    pose proof (tokb_max _ _ _ OK3 (to_max0 _ T) (to_max1 _ T)) as M2. cbn [is_copy] in M2.
    destruct R as [|[c3|n3 d3] R]; cbn [is_copy negb].
    + exists (lit_fast t c2 (lit_fast t c x)), (Z.shiftr flags 1), (p + 1 + 1), [Lit c; Lit c2], [].
      split; [reflexivity|]. split; [discriminate|]. split; [reflexivity|].
      split; [|split; [exact ST2|lia]]. unfold bitsof. cbn [toksb flat_map]. rewrite app_nil_r, app_assoc. exact F2.
    + pose proof (rd_at _ _ _ _ _ _ ST2) as A3. cbn beta iota in A3. rewrite A3. cbn [obind].
      pose proof (rd_step _ _ _ _ _ _ ST2) as ST3. rewrite len_tok_bytes in ST3. cbn [is_copy] in ST3.
      cbn [app] in OK4, IN4.
      inversion OK4 as [|? ? OK5 OK6]; subst. inversion IN4 as [|? ? IN5 IN6]; subst.
      exists (lit_fast t c3 (lit_fast t c2 (lit_fast t c x))), (Z.shiftr (Z.shiftr flags 1) 1), (p + 3), [Lit c; Lit c2; Lit c3], R.
      split; [reflexivity|]. split; [discriminate|]. split; [reflexivity|].
      replace (p + 3) with (p + 1 + 1 + 1) by lia.
      split; [|split; [exact ST3|lia]]. unfold bitsof. cbn [toksb flat_map]. rewrite app_nil_r, !app_assoc.
      apply lit_fast_ok; try assumption. rewrite !len_app. lia.
    + exists (lit_fast t c2 (lit_fast t c x)), (Z.shiftr flags 1), (p + 1 + 1), [Lit c; Lit c2], (Copy n3 d3 :: R).
      split; [reflexivity|]. split; [discriminate|]. split; [reflexivity|].
      split; [|split; [exact ST2|lia]]. unfold bitsof. cbn [toksb flat_map]. rewrite app_nil_r, app_assoc. exact F2.
  - exists (lit_fast t c x), flags, (p + 1), [Lit c], (Copy n2 d2 :: R). split; [reflexivity|]. split; [discriminate|]. split; [reflexivity|].
    split; [|split; [exact ST|lia]]. unfold bitsof. cbn [toksb flat_map]. rewrite app_nil_r. exact F1.
Qed.

Lemma lz_loop_ok turns : forall R gs p flags pad o, rd R gs p flags pad -> owf o -> ob_nb o < 8 ->
  end_ - p <= Z.of_nat turns ->
  exists r, lz_loop turns t buf end_ p flags o = Ok r /\ lz_result o (bitsof (R ++ concat gs)) r.
Proof.
  assert (forall R, 0 <= len (flat_map tok_bytes R)) as NB by (intros; apply len_nonneg).
  induction turns as [|turns IH]; intros R gs p flags pad o I W H8 HT.
  - cbn [lz_loop]. assert (p <? end_ = false) as -> by lia. exists (Some o).
    assert (R = [] /\ gs = []) as [-> ->].
    { pose proof (rd_end _ _ _ _ _ I) as RE. rewrite len_app in RE. destruct R as [|tk R].
      - split; [reflexivity|]. destruct gs as [|g gs]; [reflexivity|]. cbn [layout flat_map group_bytes app] in RE.
        rewrite len_nil, len_cons, len_app in RE. pose proof (len_nonneg _ (flat_map group_bytes gs)).
        pose proof (NB g). lia.
      - cbn [flat_map] in RE. rewrite len_app, len_tok_bytes in RE. pose proof (NB R). pose proof (len_nonneg _ (layout gs)).
        destruct (is_copy tk); lia. }
    split; [reflexivity|]. cbn [app concat]. unfold bitsof. cbn [toksb flat_map lz_result].
    rewrite app_nil_r, len_nil. repeat split; try assumption; try apply W; lia.
  - assert (R = [] /\ gs = [] \/ p < end_) as [[-> ->]|LT].
    { pose proof (rd_end _ _ _ _ _ I) as RE. rewrite len_app in RE. destruct R as [|tk R].
      - destruct gs as [|g gs]; [now left|right]. cbn [layout flat_map group_bytes app] in RE.
        rewrite len_nil, len_cons, len_app in RE. pose proof (len_nonneg _ (flat_map group_bytes gs)).
        pose proof (NB g). lia.
      - right. cbn [flat_map] in RE. rewrite len_app, len_tok_bytes in RE. pose proof (NB R). pose proof (len_nonneg _ (layout gs)).
        destruct (is_copy tk); lia. }
    { pose proof (rd_end _ _ _ _ _ I) as RE. cbn [flat_map app layout] in RE. rewrite len_nil in RE.
      cbn [lz_loop]. replace (p <? end_) with false by lia. exists (Some o).
      split; [reflexivity|]. cbn [app concat]. unfold bitsof. cbn [toksb flat_map lz_result].
      rewrite app_nil_r, len_nil. repeat split; try assumption; try apply W; lia. }
    cbn [lz_loop]. replace (p <? end_) with true by lia.
    assert (exists R1 gs1 p1 flags1 pad1, (if flags =? 1 then let* f := lz_at buf p in Ok (Z.lor f 256, p + 1) else Ok (flags, p)) = Ok (flags1, p1)
      /\ rd R1 gs1 p1 flags1 pad1 /\ R1 <> [] /\ R ++ concat gs = R1 ++ concat gs1 /\ p <= p1) as (R1 & gs1 & p1 & flags1 & pad1 & -> & I1 & N1 & EQ & LP).
    { destruct R as [|tk R].
      - destruct gs as [|g gs].
        { pose proof (rd_end _ _ _ _ _ I) as RE. cbn [flat_map app layout] in RE. rewrite len_nil in RE. lia. }
        destruct (rd_pad _ _ _ _ _ I) as [|EP]; [discriminate|]. subst pad.
        assert (flags = 1) as -> by (rewrite (rd_flags _ _ _ _ _ I); reflexivity).
        destruct (rd_load _ _ _ _ I) as (I1 & N1 & A). rewrite Z.eqb_refl, A. cbn [obind].
        exists g, gs, (p + 1), (Z.lor (bval (flags_of g)) 256), (8 - length g)%nat.
        split; [reflexivity|]. split; [exact I1|]. split; [exact N1|]. split; [reflexivity|lia].
      - exists (tk :: R), gs, p, flags, pad. rewrite (rd_flags _ _ _ _ _ I) at 1. rewrite app_assoc.
        rewrite bval_sentinel by discriminate. split; [reflexivity|]. split; [exact I|]. split; [discriminate|]. split; [reflexivity|lia]. }
    rewrite EQ. cbn [obind]. fold (one_turn flags1 p1 (ob_bb o, ob_nb o)).
    destruct (one_turn_ok R1 gs1 p1 flags1 pad1 (ob_bb o, ob_nb o) (lsb_bits (Z.to_nat (ob_nb o)) (ob_bb o)) I1 N1)
      as (x' & flags' & p' & S & R' & ER & NS & E1 & F1 & I2 & LP2).
    { destruct W as [W1 W2 W3 W4]. split; [exact W1|]. split; [exact W2|reflexivity]. }
    { rewrite lsb_len. pose proof (ow_nb o W). lia. }
    rewrite E1. cbn [obind]. destruct x' as [bb nb].
    assert (bitsof (R1 ++ concat gs1) = bitsof S ++ bitsof (R' ++ concat gs1)) as EB.
    { rewrite ER, <- app_assoc. unfold bitsof, toksb. apply flat_map_app. }
    rewrite EB. destruct (Z.geb_spec (ob_n o) OUT_LIMIT) as [HF|HF].
    + exists None. split; [reflexivity|]. cbn [lz_result]. rewrite len_app. pose proof (len_nonneg _ (bitsof S)).
      pose proof (len_nonneg _ (bitsof (R' ++ concat gs1))). pose proof (ow_nb o W). lia.
    + pose proof (fast_flush o bb nb (bitsof S) W F1) as FF. cbv zeta in FF.
      set (o' := mk_obuf _ _ _ _) in FF. destruct FF as (W' & H8' & EO & MO & EL). fold o'.
      destruct (IH R' gs1 p' (Z.shiftr flags' 1) pad1 o' I2 W' H8') as (r & E2 & RES); [lia|].
      exists r. split; [exact E2|]. destruct r as [o2|]; cbn [lz_result] in *.
      * destruct RES as (A1 & A2 & A3 & A4 & A5). split; [assumption|]. split; [assumption|].
        split; [rewrite A3, EO, app_assoc; reflexivity|]. rewrite len_app. split; lia.
      * rewrite len_app. lia.
Qed.
End Reader.
