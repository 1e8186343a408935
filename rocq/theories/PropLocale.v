(** Property C77: the locale of the program. *)
From Coq Require Import String ZArith List Bool Lia.
From Verif Require Import Base Stream BaseFacts Dtype Values Spec ValuesFacts PropValues Header HeaderFacts
  ParseFacts ParserInv ParserRel NpyFacts Tensor Npy TensorFacts PropTensor SaveFacts PropHeader Locale.
Import ListNotations.
Open Scope Z_scope.

(** ** Specification *)
(** A locale is a separator and a list of group sizes from the right, the last one repeating. A
    size that is zero, negative or CHAR_MAX means that what is left is one group. *)
Definition a_group (g : Z) : Prop := 1 <= g <= 126.
(** A locale that groups digits. *)
Definition groups_digits (l : locale) : Prop := match grouping l with g :: _ => a_group g | [] => False end.
Definition further (gs : list Z) : list Z := match gs with [g] => [g] | _ :: r => r | [] => [] end.
(** The numbers between the separators when [d] is written with groups of [gs] digits. *)
Inductive pieces : list Z -> Z -> list Z -> Prop :=
| piece_only g gs d : 0 <= d -> (a_group g -> d < 10 ^ g) -> pieces (g :: gs) d [d]
| piece_more g gs q r l : a_group g -> 0 < q -> 0 <= r < 10 ^ g -> pieces (further (g :: gs)) q l ->
    pieces (g :: gs) (10 ^ g * q + r) (l ++ [r]).
(** The header fits, in the locale it is written in, in the one length byte. *)
Definition fits_in (l : locale) (v : env) (t : tensor) (e : endian) : Prop :=
  len (dictionary_in l (array_descr (t_dtype t) (means_big (host_big v) e) (t_values t))
                     (t_fortran t) (t_shape t)) <= 245 /\
  longest (t_values t) <= 2147483647.
(** The globals after any parses so far, in any locales. *)
Inductive parsed_before : globals -> Prop :=
| before_none : parsed_before (zrepeat 0 65536, DTYPE_MAP)
| before_one l v d g : parsed_before g -> parsed_before (snd (parse_dictionary_in l v d g)).

(** ** Facts about the classic locale *)
Lemma scan_classic l t : use_grouping l = false -> forall pos ds,
  scan l t pos [] ds = (false, pos + len (fst (span_digits t)), [], ds ++ fst (span_digits t), snd (span_digits t)).
Proof.
  intros HU. induction t as [|c t IH]; intros pos ds; cbn [scan span_digits].
  - cbn [fst snd len length Z.of_nat]. rewrite app_nil_r. unfold len. cbn. now rewrite Z.add_0_r.
  - rewrite HU. cbn [andb]. destruct (is_digit c).
    + rewrite IH. destruct (span_digits t) as [a b]. cbn [fst snd]. rewrite <- app_assoc. cbn [app].
      rewrite len_cons. do 4 f_equal. lia.
    + cbn [fst snd]. rewrite app_nil_r. unfold len. cbn. now rewrite Z.add_0_r.
Qed.
Lemma get_u64_plain l s : use_grouping l = false -> get_u64 l s = sextract_u64 s.
Proof.
  intros HU. unfold get_u64, sextract_u64. destruct (good s); [|reflexivity].
  destruct (drop_spaces (rest s)) as [|c t]; [reflexivity|]. rewrite HU. cbn [andb negb]. rewrite !andb_true_r.
  rewrite (scan_classic l _ HU). destruct (span_digits _) as [ds r]. cbn [fst snd app orb negb].
  destruct ds; reflexivity.
Qed.
Lemma shape_loop_plain l f : use_grouping l = false -> forall s, shape_loop_in l f s = shape_loop f s.
Proof.
  intros HU. induction f as [|f IH]; intros s; [reflexivity|]. cbn [shape_loop_in shape_loop].
  rewrite get_u64_plain by exact HU. destruct (sextract_u64 s) as [[d|] s1]; [|reflexivity].
  destruct (speek s1) as [c s2]. destruct (c =? 44).
  - destruct (sget s2) as [x s3]. destruct (skip_ws s3) as [o s4]. destruct o; cbn [obind]; try reflexivity. now rewrite IH.
  - cbn [obind]. now rewrite IH.
Qed.

Lemma bind_same {S A B} (m m' : M S A) (k k' : A -> M S B) p :
  m p = m' p -> (forall a q, k a q = k' a q) -> bind m k p = bind m' k' p.
Proof. intros H HK. unfold bind. rewrite H. destruct (m' p) as [[a|x| |u] q]; auto. Qed.
Lemma p_shape_plain l v p : use_grouping l = false -> p_shape_in l v p = p_shape v p.
Proof.
  intros HU. unfold p_shape_in, p_shape. apply bind_same; [reflexivity|]. intros a q. apply bind_same; [reflexivity|].
  intros t q2. apply bind_same; [reflexivity|]. intros b q3. unfold parse_shape_in, parse_shape. now rewrite shape_loop_plain.
Qed.
Lemma p_entry_plain l v h p : use_grouping l = false -> p_entry_in l v h p = p_entry v h p.
Proof.
  intros HU. unfold p_entry_in, p_entry.
  apply bind_same; [reflexivity|]. intros _ p1. apply bind_same; [reflexivity|]. intros key p2.
  apply bind_same; [reflexivity|]. intros _ p3. apply bind_same; [reflexivity|]. intros _ p4.
  apply bind_same; [reflexivity|]. intros _ p5. apply bind_same; [|reflexivity].
  destruct (beq key (str "descr")); [reflexivity|]. destruct (beq key (str "fortran_order")); [reflexivity|].
  destruct (beq key (str "shape")); [|reflexivity]. apply bind_same; [|reflexivity]. now apply p_shape_plain.
Qed.
Lemma p_entries_plain l v f : use_grouping l = false -> forall h p, p_entries_in l v f h p = p_entries v f h p.
Proof.
  intros HU. induction f as [|f IH]; intros h p; [reflexivity|]. cbn [p_entries_in p_entries].
  apply bind_same; [reflexivity|]. intros c q. destruct (c =? 125); [reflexivity|].
  apply bind_same; [now apply p_entry_plain|]. intros a q2. apply IH.
Qed.
Lemma parse_dictionary_plain l v d g : use_grouping l = false -> parse_dictionary_in l v d g = parse_dictionary v d g.
Proof.
  intros HU. unfold parse_dictionary_in, parse_dictionary.
  match goal with |- context [bind ?m ?k ?p] => rewrite (bind_same m m k (fun _ => p_entries v (S (length d)) header_uninit) p) end;
    [reflexivity|reflexivity|]. intros _ q. now apply p_entries_plain.
Qed.
Lemma read_header_plain l v s g : use_grouping l = false -> read_npy_header_in l v s g = read_npy_header v s g.
Proof.
  intros HU. unfold read_npy_header_in, read_npy_header. destruct (sread STATIC_HEADER_LENGTH s) as [got s1].
  match goal with |- match ?p with _ => _ end = _ => destruct p as [[n s2]|x| |u] end; try reflexivity.
  destruct (n >? mem v); [reflexivity|]. destruct (sread n s2) as [d s3]. now rewrite parse_dictionary_plain.
Qed.
Lemma load_plain l v d s g : use_grouping l = false -> load_in l v d s g = load v d s g.
Proof. intros HU. unfold load_in, load. now rewrite read_header_plain. Qed.

Lemma dims_text_same l sh : Forall (fun d => put_u64 l d = dec d) sh -> dims_text_in l sh = dims_text sh.
Proof.
  induction 1 as [|d sh Hd HF IH]; [reflexivity|]. destruct sh as [|d2 sh]; [exact Hd|].
  change (dims_text_in l (d :: d2 :: sh)) with (put_u64 l d ++ str ", " ++ dims_text_in l (d2 :: sh)).
  change (dims_text (d :: d2 :: sh)) with (dec d ++ str ", " ++ dims_text (d2 :: sh)). now rewrite IH, Hd.
Qed.
Lemma dictionary_same l dt f sh : Forall (fun d => put_u64 l d = dec d) sh -> dictionary_in l dt f sh = dictionary dt f sh.
Proof. intros H. unfold dictionary_in, dictionary. now rewrite dims_text_same. Qed.
Lemma header_same l dt f sh : Forall (fun d => put_u64 l d = dec d) sh -> write_npy_header_in l dt f sh = write_npy_header dt f sh.
Proof. intros H. unfold write_npy_header_in, write_npy_header. now rewrite (dictionary_same l dt f sh H). Qed.
Lemma put_plain l d : use_grouping l = false -> put_u64 l d = dec d.
Proof. intros H. unfold put_u64. now rewrite H. Qed.
Lemma save_same l v t e : Forall (fun d => put_u64 l d = dec d) (t_shape t) -> save_in l v t e = save v t e.
Proof.
  intros HF. unfold save_in, save.
  destruct (dims_of t (length (t_shape t)) 0) as [sh|x| |u] eqn:E; try reflexivity. cbn [obind].
  rewrite (dims_of_ok t) in E by (change (Z.to_nat 0) with 0%nat; lia). injection E as <-. cbn [Z.to_nat skipn].
  destruct (tensor_dtype v t e); try reflexivity. cbn [obind]. now rewrite header_same.
Qed.
Lemma save_in_file l v t e : save_in l v t e =
  Ok (write_npy_header_in l (array_descr (t_dtype t) (means_big (host_big v) e) (t_values t)) (t_fortran t) (t_shape t)
      ++ write_values v (t_dtype t) e (t_values t)).
Proof.
  unfold save_in. rewrite (dims_of_ok t) by (change (Z.to_nat 0) with 0%nat; lia). cbn [obind Z.to_nat skipn].
  unfold tensor_dtype. destruct (is_string (t_dtype t)) eqn:Hs.
  - destruct (t_dtype t); try discriminate. cbn [obind]. do 2 f_equal. f_equal. unfold array_descr.
    rewrite max_length_longest. f_equal. unfold native_endian. destruct e; cbn; destruct (host_big v); reflexivity.
  - destruct (C01_dtype_strings_round_trip v (t_dtype t) e) as [_ H].
    destruct (t_dtype t); try discriminate; destruct H as [H _]; try discriminate; rewrite H; reflexivity.
Qed.

(** ** The digits of a number and its pieces *)
Lemma dec_aux_fuel f : forall f' z, 0 < z -> z < 2 ^ Z.of_nat f -> z < 2 ^ Z.of_nat f' ->
  dec_aux f z [] = dec_aux f' z [].
Proof.
  induction f as [|f IH]; intros f' z H0 H1 H2; [cbn in H1; lia|].
  destruct f' as [|f']; [cbn in H2; lia|]. cbn [dec_aux]. destruct (z <? 10) eqn:E; [reflexivity|].
  rewrite (dec_aux_app f), (dec_aux_app f'). f_equal.
  rewrite Nat2Z.inj_succ, Z.pow_succ_r in H1, H2 by lia.
  apply IH; [apply Z.div_str_pos; lia| |]; apply Z.div_lt_upper_bound; lia.
Qed.
Lemma dec_snoc m x : 0 < m -> 0 <= x < 10 -> dec (10 * m + x) = dec m ++ [48 + x].
Proof.
  intros Hm Hx. unfold dec at 1. cbn [dec_aux]. destruct (10 * m + x <? 10) eqn:E; [lia|].
  replace ((10 * m + x) / 10) with m by (rewrite Z.mul_comm, Z.div_add_l, Z.div_small; lia).
  replace ((10 * m + x) mod 10) with x by (rewrite Z.mul_comm, Z.add_comm, Z.mod_add, Z.mod_small; lia).
  rewrite dec_aux_app. f_equal. unfold dec. apply dec_aux_fuel; [exact Hm| |].
  - rewrite Z2Nat.id by apply Z.log2_nonneg.
    assert (Z.log2 m + 1 <= Z.log2 (10 * m + x)) as HL.
    { pose proof (Z.log2_double m Hm). pose proof (Z.log2_le_mono (2 * m) (10 * m + x) ltac:(lia)). lia. }
    pose proof (Z.log2_spec m Hm) as [_ H]. eapply Z.lt_le_trans; [exact H|].
    apply Z.pow_le_mono_r; lia.
  - apply dec_log. lia.
Qed.
(** [r] in exactly [k] digits *)
Fixpoint padded_dec (k : nat) (r : Z) : bytes :=
  match k with O => [] | S k' => padded_dec k' (r / 10) ++ [48 + r mod 10] end.
Lemma padded_len k : forall r, len (padded_dec k r) = Z.of_nat k.
Proof. induction k as [|k IH]; intros r; [reflexivity|]. cbn [padded_dec]. rewrite len_app, IH. unfold len. cbn [length]. lia. Qed.
Lemma padded_digits k : forall r, Forall digitb (padded_dec k r).
Proof.
  induction k as [|k IH]; intros r; [constructor|]. cbn [padded_dec]. apply Forall_app. split; [apply IH|].
  repeat constructor; pose proof (Z.mod_pos_bound r 10 ltac:(lia)); lia.
Qed.
Lemma pow10_S k : 10 ^ Z.of_nat (S k) = 10 * 10 ^ Z.of_nat k.
Proof. now rewrite Nat2Z.inj_succ, Z.pow_succ_r by lia. Qed.
Lemma padded_value k : forall r, 0 <= r < 10 ^ Z.of_nat k -> digits_value (padded_dec k r) = r.
Proof.
  induction k as [|k IH]; intros r H; [cbn in *; unfold digits_value; cbn; lia|]. rewrite pow10_S in H.
  cbn [padded_dec]. rewrite digits_value_app, IH by (split; [apply Z.div_pos|apply Z.div_lt_upper_bound]; lia).
  change (10 ^ len [48 + r mod 10]) with 10. unfold digits_value. cbn [fold_left].
  pose proof (Z.div_mod r 10 ltac:(lia)). lia.
Qed.
Lemma dec_more k : forall q r, 0 < q -> 0 <= r < 10 ^ Z.of_nat k ->
  dec (10 ^ Z.of_nat k * q + r) = dec q ++ padded_dec k r.
Proof.
  induction k as [|k IH]; intros q r Hq Hr.
  - change (10 ^ Z.of_nat 0) with 1 in *. assert (r = 0) by lia. subst. cbn [padded_dec]. rewrite app_nil_r. f_equal. lia.
  - rewrite pow10_S in *. cbn [padded_dec]. pose proof (Z.div_mod r 10 ltac:(lia)) as HD.
    pose proof (Z.mod_pos_bound r 10 ltac:(lia)) as HM.
    assert (0 <= r / 10 < 10 ^ Z.of_nat k) as HQ by (split; [apply Z.div_pos|apply Z.div_lt_upper_bound]; lia).
    replace (10 * 10 ^ Z.of_nat k * q + r) with (10 * (10 ^ Z.of_nat k * q + r / 10) + r mod 10) by lia.
    rewrite dec_snoc, IH, app_assoc by (try lia; nia). reflexivity.
Qed.
Lemma dec_more_z k q r : 0 <= k -> 0 < q -> 0 <= r < 10 ^ k -> dec (10 ^ k * q + r) = dec q ++ padded_dec (Z.to_nat k) r.
Proof. intros Hk Hq Hr. rewrite <- (Z2Nat.id k Hk) at 1. apply dec_more; [exact Hq|]. now rewrite Z2Nat.id. Qed.

(** The text of a grouped number: its parts between separators. *)
Fixpoint joined (sep : Z) (parts : list bytes) : bytes :=
  match parts with [] => [] | [p] => p | p :: t => p ++ sep :: joined sep t end.
Definition part (p : bytes) : Prop := p <> [] /\ Forall digitb p.
Lemma joined_snoc sep a p : a <> [] -> joined sep (a ++ [p]) = joined sep a ++ sep :: p.
Proof.
  induction a as [|x a IH]; [congruence|]. intros _. destruct a as [|y a]; [reflexivity|].
  change (joined sep ((x :: y :: a) ++ [p])) with (x ++ sep :: joined sep ((y :: a) ++ [p])).
  rewrite IH by discriminate. change (joined sep (x :: y :: a)) with (x ++ sep :: joined sep (y :: a)).
  now rewrite <- app_assoc.
Qed.
Lemma further_next gs : further gs = next_sizes gs.
Proof. destruct gs as [|g [|h gs]]; reflexivity. Qed.
Lemma further_ok g gs : further (g :: gs) <> [].
Proof. destruct gs; discriminate. Qed.
Lemma limited_ok g : a_group g -> limited g = true.
Proof. unfold a_group, limited. lia. Qed.
Lemma limited_is g : limited g = true -> a_group g.
Proof. unfold a_group, limited. lia. Qed.

Lemma verify_cons g gs f r : r <> [] -> verify (g :: gs) (f :: r) = (f =? g) && verify (next_sizes (g :: gs)) r.
Proof. destruct r; [congruence|reflexivity]. Qed.
Lemma grouping_pieces sep gs d l : pieces gs d l ->
  forall fuel, (length (dec d) <= fuel)%nat -> exists parts,
    add_grouping fuel sep gs (dec d) = joined sep parts /\ concat parts = dec d /\ parts <> [] /\ Forall part parts /\
    (map digits_value parts = l) /\ (verify gs (rev (map (@len Z) parts)) = true).
Proof.
  induction 1 as [g gs d Hd Hlt|g gs q r l Hg Hq Hr HP IH]; intros fuel Hf.
  - exists [dec d].
    assert (limited g = true -> len (dec d) <= g) as HL.
    { intros E. apply limited_is in E. specialize (Hlt E). unfold a_group in E. apply dec_len_aux; lia. }
    repeat split.
    + destruct fuel as [|f]; cbn [add_grouping]; [reflexivity|]. destruct (limited g) eqn:EL; [|now rewrite andb_false_r].
      specialize (HL eq_refl). destruct (len (dec d) >? g) eqn:E; [lia|]. reflexivity.
    + cbn [concat]. now rewrite app_nil_r.
    + discriminate.
    + constructor; [|constructor]. split; [apply dec_nonempty|]. apply dec_digits. lia.
    + cbn [map]. now rewrite dec_value by lia.
    + cbn [map rev app verify]. destruct (limited g); [specialize (HL eq_refl); lia|reflexivity].
  - pose proof Hg as Hg'. unfold a_group in Hg'.
    rewrite dec_more_z in * by lia. set (p := padded_dec (Z.to_nat g) r) in *.
    assert (len p = g) as HL by (unfold p; rewrite padded_len; lia).
    destruct fuel as [|f].
    { exfalso. rewrite app_length in Hf. pose proof (dec_len_pos q). unfold len in *. lia. }
    destruct (IH f) as (parts & H1 & H2 & H3 & H4 & H5 & H6).
    { rewrite app_length in Hf. unfold len in HL. lia. }
    exists (parts ++ [p]). repeat split.
    + cbn [add_grouping]. rewrite (limited_ok g Hg), len_app, HL.
      pose proof (dec_len_pos q). destruct (len (dec q) + g >? g) eqn:E; [|lia]. cbn [andb].
      replace (len (dec q) + g - g) with (len (dec q)) by lia.
      rewrite ztake_app_exact, zdrop_app_exact by reflexivity. rewrite <- further_next, H1.
      rewrite joined_snoc by exact H3. reflexivity.
    + rewrite concat_app, H2. cbn [concat]. now rewrite app_nil_r.
    + destruct parts; discriminate.
    + apply Forall_app. split; [exact H4|]. constructor; [|constructor]. split; [|apply padded_digits].
      intros E. rewrite E in HL. cbn in HL. lia.
    + rewrite map_app, H5. cbn [map]. unfold p. rewrite padded_value by (rewrite Z2Nat.id; lia). reflexivity.
    + rewrite map_app, rev_app_distr. cbn [map rev app]. rewrite HL.
      rewrite verify_cons.
      * rewrite Z.eqb_refl, <- further_next. exact H6.
      * intros E. apply (f_equal (@length Z)) in E. rewrite rev_length, map_length in E. destruct parts; [congruence|discriminate].
Qed.

Lemma pieces_total gs : forall n d, gs <> [] -> 0 <= d < Z.of_nat n -> exists l, pieces gs d l.
Proof.
  intros n. revert gs. induction n as [|n IH]; intros gs d HN Hd; [lia|].
  destruct gs as [|g gs]; [congruence|].
  destruct (limited g) eqn:EL.
  2:{ exists [d]. constructor; [lia|]. intros HG. apply limited_ok in HG. congruence. }
  apply limited_is in EL. pose proof EL as Hg. unfold a_group in Hg.
  destruct (d <? 10 ^ g) eqn:E; [exists [d]; constructor; [|intros _]; lia|].
  assert (10 <= 10 ^ g) as HP by (change 10 with (10 ^ 1) at 1; apply Z.pow_le_mono_r; lia).
  assert (0 < d / 10 ^ g) as HQ by (apply Z.div_str_pos; lia).
  assert (d / 10 ^ g < d) as HQ2 by (apply Z.div_lt; lia).
  destruct (IH (further (g :: gs)) (d / 10 ^ g) (further_ok g gs) ltac:(lia)) as [l Hl].
  exists (l ++ [d mod 10 ^ g]). rewrite (Z.div_mod d (10 ^ g)) at 1 by lia.
  constructor; [exact EL|exact HQ| |exact Hl]. apply Z.mod_pos_bound. lia.
Qed.
Lemma pieces_exist l d : groups_digits l -> 0 <= d -> exists ps, pieces (grouping l) d ps.
Proof.
  intros HG Hd. apply (pieces_total _ (S (Z.to_nat d))); [|lia]. unfold groups_digits in HG. now destruct (grouping l).
Qed.
Lemma grouping_on l : groups_digits l -> use_grouping l = true.
Proof.
  unfold groups_digits, use_grouping. destruct (grouping l) as [|g gs]; [contradiction|]. apply limited_ok.
Qed.
Lemma put_parts l d ps : groups_digits l -> pieces (grouping l) d ps -> exists parts,
  put_u64 l d = joined (thousands_sep l) parts /\ concat parts = dec d /\ parts <> [] /\ Forall part parts /\
  map digits_value parts = ps /\ verify (grouping l) (rev (map len parts)) = true.
Proof.
  intros HG HP. unfold put_u64. rewrite (grouping_on _ HG). now apply grouping_pieces.
Qed.

(** ** Reading numbers *)
Definition follow (l : locale) (r : bytes) : Prop :=
  match r with [] => True | c :: _ => is_digit c = false /\ use_grouping l && (c =? thousands_sep l) = false end.
Definition reads (l : locale) (x : bytes) (d : Z) : Prop :=
  (exists c t, x = c :: t /\ digitb c) /\
  forall s r, good s = true -> rest s = x ++ r -> follow l r ->
  get_u64 l s = (Some d, let s1 := set_rest s r in match r with [] => set_eof s1 | _ => s1 end).

Lemma digit_is c : digitb c -> is_digit c = true.
Proof. unfold digitb, is_digit. lia. Qed.
Lemma scan_part l p r : (use_grouping l = true -> is_digit (thousands_sep l) = false) -> Forall digitb p ->
  forall pos found ds, scan l (p ++ r) pos found ds = scan l r (pos + len p) found (ds ++ p).
Proof.
  intros HS. induction 1 as [|c p Hc HF IH]; intros pos found ds.
  - cbn [app]. rewrite app_nil_r. unfold len. cbn. now rewrite Z.add_0_r.
  - cbn [app scan].
    assert (use_grouping l && (c =? thousands_sep l) = false) as ->.
    { destruct (use_grouping l) eqn:E; [|reflexivity]. specialize (HS eq_refl). cbn [andb].
      apply digit_is in Hc. destruct (c =? thousands_sep l) eqn:E2; [|reflexivity]. apply Z.eqb_eq in E2. congruence. }
    rewrite (digit_is c Hc), IH, <- app_assoc, len_cons. cbn [app]. f_equal. lia.
Qed.
Lemma scan_follow l r pos found ds : follow l r -> scan l r pos found ds = (false, pos, found, ds, r).
Proof. intros H. destruct r as [|c r]; [reflexivity|]. destruct H as [H1 H2]. cbn [scan]. now rewrite H2, H1. Qed.
Lemma scan_joined l parts r : use_grouping l = true -> is_digit (thousands_sep l) = false ->
  Forall part parts -> parts <> [] -> forall found ds,
  scan l (joined (thousands_sep l) parts ++ r) 0 found ds =
  scan l r (len (last parts [])) (found ++ map len (removelast parts)) (ds ++ concat parts).
Proof.
  intros HU HS. induction 1 as [|p parts Hp HF IH]; [congruence|]. intros _ found ds. destruct Hp as [Hp1 Hp2].
  destruct parts as [|p2 parts].
  - cbn [joined last removelast map concat]. rewrite scan_part by auto. rewrite !app_nil_r. reflexivity.
  - change (joined (thousands_sep l) (p :: p2 :: parts)) with (p ++ thousands_sep l :: joined (thousands_sep l) (p2 :: parts)).
    rewrite <- app_assoc, scan_part by auto. cbn [app scan]. rewrite HU, Z.eqb_refl. cbn [andb].
    assert (0 < len p) by (destruct p; [congruence|]; rewrite len_cons; pose proof (len_nonneg _ p); lia).
    destruct (0 + len p =? 0) eqn:E; [lia|]. rewrite IH by discriminate.
    change (last (p :: p2 :: parts) []) with (last (p2 :: parts) []).
    change (removelast (p :: p2 :: parts)) with (p :: removelast (p2 :: parts)).
    change (concat (p :: p2 :: parts)) with (p ++ concat (p2 :: parts)). cbn [map].
    rewrite <- !app_assoc. reflexivity.
Qed.
Lemma joined_head sep parts : Forall part parts -> parts <> [] -> exists c t, joined sep parts = c :: t /\ digitb c.
Proof.
  intros HF HN. destruct parts as [|p parts]; [congruence|]. destruct (Forall_inv HF) as [Hp1 Hp2].
  destruct p as [|c p]; [congruence|]. pose proof (Forall_inv Hp2) as Hc.
  destruct parts; cbn [joined app]; eauto.
Qed.
(** A number written in a locale is read back in it. *)
Lemma reads_own l d : groups_digits l -> is_digit (thousands_sep l) = false -> 0 <= d <= max64 -> reads l (put_u64 l d) d.
Proof.
  intros HG HS Hd. destruct (pieces_exist l d HG ltac:(lia)) as [ps HP].
  destruct (put_parts l d ps HG HP) as (parts & H1 & H2 & H3 & H4 & H5 & H6). rewrite H1.
  pose proof (grouping_on _ HG) as HU.
  destruct (joined_head (thousands_sep l) parts H4 H3) as (c & t & HJ & Hc).
  split; [eauto|]. intros s r G R HFo. unfold get_u64. rewrite G, R, HJ. cbn [app].
  rewrite drop_spaces_nonspace by now apply digit_not_space.
  assert (c =? 45 = false /\ c =? 43 = false) as [-> ->] by (unfold digitb in Hc; lia). cbn [andb orb].
  rewrite (app_comm_cons t r c), <- HJ. rewrite scan_joined by auto. rewrite scan_follow by exact HFo. cbn [app].
  assert (concat parts <> []) as HC by (rewrite H2; apply dec_nonempty).
  destruct (concat parts) as [|x xs] eqn:EC; [congruence|]. rewrite H2, dec_value by lia.
  assert (match map len (removelast parts) with
          | [] => true | _ => verify (grouping l) (rev (map len (removelast parts) ++ [len (last parts [])])) end = true) as ->.
  { assert (map len (removelast parts) ++ [len (last parts [])] = map len parts) as ->.
    { rewrite (app_removelast_last [] H3) at 3. rewrite map_app. reflexivity. }
    rewrite H6. destruct (map len (removelast parts)); reflexivity. }
  destruct (d >? max64) eqn:E; [lia|]. reflexivity.
Qed.
(** Digits are read in any locale, the classic one included. *)
Lemma reads_digits l p : (use_grouping l = true -> is_digit (thousands_sep l) = false) -> part p -> digits_value p <= max64 ->
  reads l p (digits_value p).
Proof.
  intros HS [Hp1 Hp2] HV. destruct p as [|c p]; [congruence|]. pose proof (Forall_inv Hp2) as Hc.
  split; [eauto|]. intros s r G R HFo. unfold get_u64. rewrite G, R. cbn [app].
  rewrite drop_spaces_nonspace by now apply digit_not_space.
  assert (c =? 45 = false /\ c =? 43 = false) as [-> ->] by (unfold digitb in Hc; lia). cbn [andb orb].
  rewrite (app_comm_cons p r c). rewrite scan_part by auto. rewrite scan_follow by exact HFo. cbn [app orb negb].
  destruct (digits_value (c :: p) >? max64) eqn:E; [lia|]. reflexivity.
Qed.

(** ** Reading shapes *)
Definition head_ok (t : bytes) : Prop := match t with [] => True | c :: _ => is_space c = false /\ c <> -1 end.
Inductive toks (l : locale) : bytes -> list Z -> Prop :=
| toks_stop t : (forall s, good s = true -> rest s = t -> fst (get_u64 l s) = None) -> toks l t []
| toks_comma x d w t ds : reads l x d -> follow l (44 :: w ++ t) -> blank w -> head_ok t -> toks l t ds ->
    toks l (x ++ 44 :: w ++ t) (d :: ds)
| toks_other x d t ds : reads l x d -> follow l t -> (match t with 44 :: _ => False | _ => True end) -> toks l t ds ->
    toks l (x ++ t) (d :: ds)
| toks_blank c t ds : is_space c = true -> toks l t ds -> toks l (c :: t) ds.

Lemma toks_nil l : toks l [] [].
Proof. constructor. intros s G R. unfold get_u64. rewrite G, R. reflexivity. Qed.
Lemma toks_nil_inv l ds : toks l [] ds -> ds = [].
Proof.
  assert (forall t, toks l t ds -> t = [] -> ds = []) as HG by
    (intros t0 [t H| x d w t ds' ((c & u & -> & _) & _)| x d t ds' ((c & u & -> & _) & _)|]; try discriminate; reflexivity).
  intros H. now apply (HG []).
Qed.
Lemma get_bad l s : good s = false -> fst (get_u64 l s) = None.
Proof. intros G. unfold get_u64. now rewrite G. Qed.
Lemma shape_in_bad l f s : good s = false -> (0 < f)%nat -> shape_loop_in l f s = Ok [].
Proof.
  intros G Hf. destruct f; [lia|]. cbn [shape_loop_in]. pose proof (get_bad l s G) as H.
  destruct (get_u64 l s) as [o s1]. cbn in H. now subst o.
Qed.
Lemma toks_loop l t ds : toks l t ds -> forall f s, good s = true -> rest s = t -> (length ds < f)%nat ->
  shape_loop_in l f s = Ok ds.
Proof.
  induction 1 as [t HT|x d w t ds HR HFo Hw Hh HT IH|x d t ds HR HFo Hn HT IH|c t ds Hc HT IH]; intros f s G R Hf.
  - destruct f; [lia|]. cbn [shape_loop_in]. specialize (HT s G R). destruct (get_u64 l s) as [o s1]. cbn in HT. now subst o.
  - destruct f; [lia|]. cbn [length] in Hf. cbn [shape_loop_in]. destruct HR as [_ HR]. rewrite (HR s _ G R HFo). cbv zeta iota.
    rewrite (speek_cons _ 44 (w ++ t)) by auto. rewrite Z.eqb_refl.
    rewrite (sget_cons _ 44 (w ++ t)) by auto. rewrite set_rest_set_rest.
    destruct t as [|c t].
    + apply toks_nil_inv in HT. subst ds. rewrite app_nil_r.
      assert (exists s', skip_ws (set_rest s w) = (Ok tt, s') /\ good s' = false) as (s' & -> & HB).
      { clear -G Hw. unfold skip_ws. cbn [rest set_rest].
        assert (forall n s0, good s0 = true -> rest s0 = w -> (length w < n)%nat -> exists s', skip_ws_loop n s0 = (Ok tt, s') /\ good s' = false) as HK.
        { induction Hw as [|c w Hc Hw IH]; intros n s0 G0 R0 Hn; (destruct n; [lia|]); cbn [skip_ws_loop].
          - unfold speek. rewrite G0, R0. exists (set_eof s0). split; reflexivity.
          - rewrite (speek_cons _ _ _ G0 R0). assert (is_space c = true) as -> by (unfold is_space; lia).
            rewrite (sget_cons _ _ _ G0 R0). apply IH; [exact G0|reflexivity|cbn [length] in Hn; lia]. }
        apply HK; [exact G|reflexivity|lia]. }
      cbn [obind]. rewrite shape_in_bad by (auto; lia). reflexivity.
    + destruct Hh as [Hh1 Hh2]. unfold skip_ws. rewrite (skip_ws_loop_at (set_rest s (w ++ c :: t)) w c t); auto.
      2:{ cbn [rest set_rest]. rewrite app_length. lia. }
      cbn [obind]. rewrite set_rest_set_rest. rewrite IH; [reflexivity|exact G|reflexivity|lia].
  - destruct f; [lia|]. cbn [length] in Hf. cbn [shape_loop_in]. destruct HR as [_ HR]. rewrite (HR s _ G R HFo). cbv zeta.
    destruct t as [|c t].
    + apply toks_nil_inv in HT. subst ds. unfold speek. rewrite good_set_eof. change (-1 =? 44) with false. cbv iota. cbn [obind].
      rewrite shape_in_bad by (try reflexivity; lia). reflexivity.
    + rewrite (speek_cons _ c t) by auto. destruct (c =? 44) eqn:E; [apply Z.eqb_eq in E; subst; contradiction|].
      cbn [obind]. rewrite IH; [reflexivity|exact G|reflexivity|lia].
  - assert (get_u64 l s = get_u64 l (set_rest s t)) as HG.
    { unfold get_u64. change (good (set_rest s t)) with (good s). rewrite G, R. cbn [rest set_rest].
      assert (drop_spaces (c :: t) = drop_spaces t) as -> by (cbn [drop_spaces]; now rewrite Hc). reflexivity. }
    specialize (IH f (set_rest s t) G eq_refl Hf). destruct f; [lia|]. cbn [shape_loop_in] in IH |- *. now rewrite HG.
Qed.
Lemma toks_length l t ds : toks l t ds -> (length ds <= length t)%nat.
Proof.
  induction 1 as [|x d w t ds ((c & u & -> & _) & _) ? ? ? ? IH|x d t ds ((c & u & -> & _) & _) ? ? ? IH|]; cbn [length app] in *; try lia;
    rewrite ?app_length; cbn [length]; rewrite ?app_length; lia.
Qed.
Lemma toks_shape l t ds : toks l t ds -> parse_shape_in l t = Ok ds.
Proof. intros H. unfold parse_shape_in. apply (toks_loop l t ds H); [reflexivity|reflexivity|]. pose proof (toks_length _ _ _ H). lia. Qed.

Definition chunk (l : locale) (x : bytes) (ds : list Z) : Prop :=
  (exists c t, x = c :: t /\ digitb c) /\ toks l x ds /\
  forall w t es, blank w -> head_ok t -> toks l t es -> toks l (x ++ 44 :: w ++ t) (ds ++ es).
Definition comma_ok (l : locale) : Prop := use_grouping l && (44 =? thousands_sep l) = false.
Lemma follow_comma l r : comma_ok l -> follow l (44 :: r).
Proof. intros H. split; [reflexivity|exact H]. Qed.
Lemma chunk_reads l x d : comma_ok l -> reads l x d -> chunk l x [d].
Proof.
  intros HC HR. split; [apply HR|]. split.
  - rewrite <- (app_nil_r x). apply toks_other; [exact HR|exact I|exact I|apply toks_nil].
  - intros w t es Hw Hh HT. cbn [app]. apply toks_comma; auto. now apply follow_comma.
Qed.
Lemma digit_head_ok c t : digitb c -> head_ok (c :: t).
Proof. intros H. split; [now apply digit_not_space|]. unfold digitb in H. lia. Qed.

Definition shape_text (w : locale) (sh : list Z) : bytes :=
  dims_text_in w sh ++ (match sh with [_] => str "," | _ => [] end).
Lemma text_head w r sh dss : Forall2 (fun d ds => chunk r (put_u64 w d) ds) sh dss -> head_ok (dims_text_in w sh).
Proof.
  intros [|d ds sh' dss' ((c & u & HE & Hc) & _) H]; [exact I|]. destruct sh'; cbn [dims_text_in]; rewrite HE; now apply digit_head_ok.
Qed.
Lemma dims_toks w r sh dss : Forall2 (fun d ds => chunk r (put_u64 w d) ds) sh dss -> toks r (dims_text_in w sh) (concat dss).
Proof.
  induction 1 as [|d ds sh dss Hd HF IH]; [apply toks_nil|]. destruct sh as [|d2 sh].
  - inversion HF; subst. cbn [dims_text_in concat]. rewrite app_nil_r. apply Hd.
  - change (dims_text_in w (d :: d2 :: sh)) with (put_u64 w d ++ 44 :: [32] ++ dims_text_in w (d2 :: sh)). cbn [concat].
    apply Hd; [repeat constructor| |exact IH]. exact (text_head _ _ _ _ HF).
Qed.
Lemma shape_toks w r sh dss : Forall2 (fun d ds => chunk r (put_u64 w d) ds) sh dss -> toks r (shape_text w sh) (concat dss).
Proof.
  intros H. pose proof (dims_toks _ _ _ _ H) as HT. unfold shape_text. destruct H as [|d ds sh dss Hd HF]; [exact HT|].
  destruct sh as [|d2 sh]; [|now rewrite app_nil_r].
  inversion HF; subst. cbn [dims_text_in concat]. change (str ",") with (44 :: [] ++ []).
  apply Hd; [constructor|exact I|apply toks_nil].
Qed.

(** ** The dictionary around the shape *)
Definition framed (code : bytes) (f : bool) (T : bytes) (tail : bytes) : bytes :=
  123 :: (39 :: str "descr" ++ 39 :: 58 :: 32 :: (39 :: code ++ [39]) ++ 44 :: 32 ::
  39 :: str "fortran_order" ++ 39 :: 58 :: 32 :: (if f then str "True" else str "False") ++ 44 :: 32 ::
  39 :: str "shape" ++ 39 :: 58 :: 32 :: (40 :: T ++ [41]) ++ 44 :: 32 :: 125 :: tail).
Lemma dictionary_framed w code f sh tail : dictionary_in w code f sh ++ tail = framed code f (shape_text w sh) tail.
Proof.
  unfold dictionary_in, framed, shape_text. cbn [str map list_ascii_of_string].
  repeat (rewrite <- ?app_assoc; cbn [app]). destruct f; repeat (rewrite <- ?app_assoc; cbn [app str map list_ascii_of_string]); reflexivity.
Qed.

Section Frame.
  Variable l : locale.
  Variable v : env.
  Variable s : istream.
  Hypothesis G : good s = true.
  Definition value_step (key : bytes) (h : header_info) : M pst header_info :=
    (if beq key (str "descr") then
           code <- p_string v ;;
           x <- p_descr code ;;
           let '(d, e, n) := x in
           ret (mk_header (Some d) (Some e) (h_fortran h) (h_shape h) (Some n))
         else if beq key (str "fortran_order") then
           b <- p_bool v ;;
           ret (mk_header (h_dtype h) (h_endian h) (Some b) (h_shape h) (h_maxlen h))
         else if beq key (str "shape") then
           sh <- p_shape_in l v ;;
           ret (mk_header (h_dtype h) (h_endian h) (h_fortran h) sh (h_maxlen h))
         else lift (Throw RuntimeError))%monad.
  Lemma skip_none c r b m : is_space c = false -> c <> -1 -> p_skip_ws (at_ s (c :: r) b m) = (Ok tt, at_ s (c :: r) b m).
  Proof. intros H1 H2. apply (p_skip_ws_at s G [] c r b m); auto. constructor. Qed.
  Lemma skip_one c r b m : is_space c = false -> c <> -1 -> p_skip_ws (at_ s (32 :: c :: r) b m) = (Ok tt, at_ s (c :: r) b m).
  Proof. intros H1 H2. apply (p_skip_ws_at s G [32] c r b m); auto. repeat constructor. Qed.
  Lemma entry_frame key body c r b m h h1 :
    Forall (fun x => x <> 39) key -> len key < 65535 -> head_ok body -> body <> [] -> is_space c = false -> c <> -1 ->
    (forall b, exists b' m', map_ok m' /\ value_step key h (at_ s (body ++ 44 :: 32 :: c :: r) b m) = (Ok h1, at_ s (44 :: 32 :: c :: r) b' m')) ->
    exists b' m', map_ok m' /\
      p_entry_in l v h (at_ s (39 :: key ++ 39 :: 58 :: 32 :: body ++ 44 :: 32 :: c :: r) b m) = (Ok h1, at_ s (c :: r) b' m').
  Proof.
    intros HK1 HK2 Hh Hb Hc1 Hc2 HV. unfold p_entry_in.
    unfold bind at 1. rewrite skip_none by (reflexivity || lia).
    destruct (p_string_at v s G key (58 :: 32 :: body ++ 44 :: 32 :: c :: r) b m HK1 HK2) as [b1 H1].
    unfold bind at 1. rewrite H1.
    unfold bind at 1. rewrite skip_none by (reflexivity || lia).
    unfold bind at 1. rewrite p_char_at by (auto; lia).
    destruct body as [|x y]; [congruence|]. destruct Hh as [Hx1 Hx2].
    unfold bind at 1. cbn [app].
    rewrite skip_one by assumption.
    destruct (HV b1) as (b2 & m2 & Hm2 & H2). cbn [app] in H2.
    fold (value_step key h). unfold bind at 1. rewrite H2.
    unfold bind at 1. rewrite p_char_at by (auto; lia).
    unfold bind. rewrite skip_one by assumption.
    exists b2, m2. split; [exact Hm2|reflexivity].
  Qed.
  Lemma frame_entries (code : bytes) d e n (f : bool) (T : bytes) sh fuel b m (tail : bytes) :
    map_ok m -> descr_denotes code d e n -> Forall (fun c => c <> 41) T -> len T < 65535 ->
    parse_shape_in l T = Ok sh -> (3 < fuel)%nat ->
    exists (b' : bytes) (m' : dmap), map_ok m' /\ p_entries_in l v fuel header_uninit
      (at_ s (39 :: str "descr" ++ 39 :: 58 :: 32 :: (39 :: code ++ [39]) ++ 44 :: 32 ::
  39 :: str "fortran_order" ++ 39 :: 58 :: 32 :: (if f then str "True" else str "False") ++ 44 :: 32 ::
  39 :: str "shape" ++ 39 :: 58 :: 32 :: (40 :: T ++ [41]) ++ 44 :: 32 :: 125 :: tail) b m)
      = (Ok (mk_header (Some d) (Some e) (Some f) sh (Some n)), at_ s tail b' m').
  Proof.
    intros Hm Hd HT1 HT2 HP Hf.
    destruct fuel as [|[|[|[|fuel]]]]; try lia.
    destruct (descr_code_ok _ _ _ _ Hd) as [HC1 HC2].
    set (R3 := str "shape" ++ 39 :: 58 :: 32 :: (40 :: T ++ [41]) ++ 44 :: 32 :: 125 :: tail).
    set (R2 := str "fortran_order" ++ 39 :: 58 :: 32 :: (if f then str "True" else str "False") ++ 44 :: 32 :: 39 :: R3).
    (* descr *)
    destruct (entry_frame (str "descr") (39 :: code ++ [39]) 39 R2 b m header_uninit (mk_header (Some d) (Some e) None [] (Some n))) as (b1 & m1 & Hm1 & H1);
      [repeat constructor; discriminate|reflexivity|split; [reflexivity|lia]|discriminate|reflexivity|lia| |].
    { intros b0. unfold value_step. change (beq (str "descr") (str "descr")) with true. cbv iota.
      cbn [app]. rewrite <- app_assoc. cbn [app].
      destruct (p_string_at v s G code (44 :: 32 :: 39 :: R2) b0 m HC1 HC2) as [b2 H2].
      destruct (p_descr_at (at_ s (44 :: 32 :: 39 :: R2) b2 m) code d e n Hd Hm) as (m' & H3 & Hm').
      unfold bind at 1. rewrite H2. unfold bind at 1. rewrite H3. exists b2, m'. split; [exact Hm'|reflexivity]. }
    (* fortran_order *)
    destruct (entry_frame (str "fortran_order") (if f then str "True" else str "False") 39 R3 b1 m1
       (mk_header (Some d) (Some e) None [] (Some n)) (mk_header (Some d) (Some e) (Some f) [] (Some n))) as (b2 & m2 & Hm2 & H2);
      [repeat constructor; discriminate|reflexivity|destruct f; split; (reflexivity||lia)|destruct f; discriminate|reflexivity|lia| |].
    { intros b0. unfold value_step. change (beq (str "fortran_order") (str "descr")) with false.
      change (beq (str "fortran_order") (str "fortran_order")) with true. cbv iota.
      destruct (p_bool_at v s G f (44 :: 32 :: 39 :: R3) b0 m1) as [b3 H3].
      exists b3, m1. split; [exact Hm1|]. destruct f; cbv iota in H3 |- *; unfold bind at 1; rewrite H3; reflexivity. }
    (* shape *)
    destruct (entry_frame (str "shape") (40 :: T ++ [41]) 125 tail b2 m2
       (mk_header (Some d) (Some e) (Some f) [] (Some n)) (mk_header (Some d) (Some e) (Some f) sh (Some n))) as (b3 & m3 & Hm3 & H3);
      [repeat constructor; discriminate|reflexivity|split; [reflexivity|lia]|discriminate|reflexivity|lia| |].
    { intros b0. unfold value_step. change (beq (str "shape") (str "descr")) with false.
      change (beq (str "shape") (str "fortran_order")) with false. change (beq (str "shape") (str "shape")) with true. cbv iota.
      cbn [app]. rewrite <- app_assoc. cbn [app]. unfold p_shape_in.
      unfold bind at 1. unfold bind at 1. rewrite p_char_at by (auto; lia).
      destruct (p_read_to_at v s G 41 T (44 :: 32 :: 125 :: tail) b0 m2 HT1 HT2) as [b4 H4].
      unfold bind at 1. rewrite H4. unfold bind at 1. rewrite p_char_at by (auto; lia). unfold lift. rewrite HP.
      exists b4, m2. split; [exact Hm2|reflexivity]. }
    exists b3, m3. split; [exact Hm3|].
    cbn [p_entries_in]. unfold bind at 1. rewrite p_peek_at by exact G. change (39 =? 125) with false. cbv iota.
    unfold bind at 1. fold R3. fold R2. rewrite H1.
    unfold bind at 1. rewrite p_peek_at by exact G. change (39 =? 125) with false. cbv iota.
    unfold bind at 1. pose proof (H2 : p_entry_in l v _ (at_ s (39 :: R2) b1 m1) = _) as H2'. rewrite H2'.
    unfold bind at 1. rewrite p_peek_at by exact G. change (39 =? 125) with false. cbv iota.
    unfold bind at 1. pose proof (H3 : p_entry_in l v _ (at_ s (39 :: R3) b2 m2) = _) as H3'. rewrite H3'.
    unfold bind at 1. rewrite p_peek_at by exact G. change (125 =? 125) with true. cbv iota.
    unfold bind. rewrite p_char_at by (auto; lia). reflexivity.
  Qed.
End Frame.

(** ** The type table stays usable *)
Definition keeps {A} (m : M pst A) : Prop := forall p, map_ok (p_map p) -> map_ok (p_map (snd (m p))).
Lemma keeps_safe {A} (m : M pst A) : safe m -> keeps m.
Proof. intros H p. destruct (H p) as [(_ & H2 & _) _]. exact H2. Qed.
Lemma keeps_bind {A B} (m : M pst A) (k : A -> M pst B) : keeps m -> (forall a, keeps (k a)) -> keeps (bind m k).
Proof.
  intros Hm Hk p Hp. unfold bind. specialize (Hm p Hp). destruct (m p) as [[a|x| |u] q]; cbn [snd] in *; auto. now apply Hk.
Qed.
Lemma keeps_ret {A} (a : A) : keeps (ret a).
Proof. intros p H. exact H. Qed.
Lemma keeps_lift {A} (o : outcome A) : keeps (lift o).
Proof. intros p H. exact H. Qed.
Lemma keeps_shape l v : keeps (p_shape_in l v).
Proof.
  unfold p_shape_in. apply keeps_bind; [apply keeps_safe, safe_char|]. intros _.
  apply keeps_bind; [apply keeps_safe, safe_read_to|]. intros t.
  apply keeps_bind; [apply keeps_safe, safe_char|]. intros _. apply keeps_lift.
Qed.
Lemma keeps_entry l v h : keeps (p_entry_in l v h).
Proof.
  unfold p_entry_in. apply keeps_bind; [apply keeps_safe, safe_skip|]. intros _.
  apply keeps_bind; [apply keeps_safe, safe_string|]. intros key.
  apply keeps_bind; [apply keeps_safe, safe_skip|]. intros _.
  apply keeps_bind; [apply keeps_safe, safe_char|]. intros _.
  apply keeps_bind; [apply keeps_safe, safe_skip|]. intros _.
  apply keeps_bind; [|intros h'; apply keeps_bind; [apply keeps_safe, safe_char|]; intros _;
                     apply keeps_bind; [apply keeps_safe, safe_skip|]; intros _; apply keeps_ret].
  destruct (beq key (str "descr")); [|destruct (beq key (str "fortran_order")); [|destruct (beq key (str "shape"))]].
  - apply keeps_bind; [apply keeps_safe, safe_string|]. intros code. apply keeps_bind; [apply keeps_safe, safe_descr|].
    intros [[d e] n]. apply keeps_ret.
  - apply keeps_bind; [apply keeps_safe, safe_bool|]. intros b. apply keeps_ret.
  - apply keeps_bind; [apply keeps_shape|]. intros b. apply keeps_ret.
  - apply keeps_lift.
Qed.
Lemma keeps_entries l v f : forall h, keeps (p_entries_in l v f h).
Proof.
  induction f as [|f IH]; intros h; [apply keeps_lift|]. cbn [p_entries_in].
  apply keeps_bind; [apply keeps_safe, safe_peek|]. intros c. destruct (c =? 125).
  - apply keeps_bind; [apply keeps_safe, safe_char|]. intros _. apply keeps_ret.
  - apply keeps_bind; [apply keeps_entry|]. exact IH.
Qed.
Lemma before_map g : parsed_before g -> map_ok (snd g).
Proof.
  induction 1 as [|l v d g H IH]; [apply map_ok_init|]. unfold parse_dictionary_in.
  assert (keeps (p_char v 123 ;;; p_entries_in l v (S (length d)) header_uninit)%monad) as HK.
  { apply keeps_bind; [apply keeps_safe, safe_char|]. intros _. apply keeps_entries. }
  specialize (HK (mk_pst (open_str d) (fst g) (snd g)) IH).
  destruct ((p_char v 123 ;;; p_entries_in l v (S (length d)) header_uninit)%monad (mk_pst (open_str d) (fst g) (snd g))). exact HK.
Qed.

(** ** Whole files *)
Lemma parse_framed l v g code d e n f T sh tail :
  map_ok (snd g) -> descr_denotes code d e n -> Forall (fun c => c <> 41) T -> len T < 65535 -> parse_shape_in l T = Ok sh ->
  fst (parse_dictionary_in l v (framed code f T tail) g) = Ok (mk_header (Some d) (Some e) (Some f) sh (Some n)).
Proof.
  intros Hm Hd HT1 HT2 HP. unfold parse_dictionary_in. set (D := framed code f T tail).
  change (mk_pst (open_str D) (fst g) (snd g)) with (at_ (open_str D) D (fst g) (snd g)).
  destruct (frame_entries l v (open_str D) eq_refl code d e n f T sh (S (length D)) (fst g) (snd g) tail Hm Hd HT1 HT2 HP) as (b' & m' & _ & H).
  { unfold D, framed. cbn [length app str map list_ascii_of_string]. lia. }
  assert ((p_char v 123 ;;; p_entries_in l v (S (length D)) header_uninit)%monad (at_ (open_str D) D (fst g) (snd g))
    = (Ok (mk_header (Some d) (Some e) (Some f) sh (Some n)), at_ (open_str D) tail b' m')) as ->; [|reflexivity].
  pose proof (p_char_at v (open_str D) eq_refl 123 _ (fst g) (snd g) ltac:(lia)
    : p_char v 123 (at_ (open_str D) D (fst g) (snd g)) = _) as HC.
  unfold bind. rewrite HC. exact H.
Qed.
Lemma read_header_in_v1 l v s g lo hi body tail :
  good s = true -> len body = lo + 256 * hi -> len body <= mem v ->
  rest s = [147; 78; 85; 77; 80; 89; 1; 0; lo; hi] ++ body ++ tail ->
  read_npy_header_in l v s g =
    (fst (parse_dictionary_in l v body g), set_rest s tail, snd (parse_dictionary_in l v body g)).
Proof.
  intros G HL HM HR. unfold read_npy_header_in.
  assert (sread STATIC_HEADER_LENGTH s =
          ([147; 78; 85; 77; 80; 89; 1; 0; lo; hi], set_rest s (body ++ tail))) as ->.
  { apply (sread_app s [147; 78; 85; 77; 80; 89; 1; 0; lo; hi] (body ++ tail) G HR). }
  match goal with |- context [if dbg v then ?c else _] => assert ((if dbg v then c else Ok tt) = Ok tt) as ->
    by (destruct (dbg v); reflexivity) end.
  assert (cells 10 [147; 78; 85; 77; 80; 89; 1; 0; lo; hi] = map Some [147; 78; 85; 77; 80; 89; 1; 0; lo; hi]) as -> by reflexivity.
  cbn [obind and_then cell_is cell map nth Z.eqb Pos.eqb].
  rewrite <- HL. destruct (len body >? mem v) eqn:E; [lia|].
  rewrite (sread_app (set_rest s (body ++ tail)) body tail) by auto.
  rewrite Z.sub_diag. cbn [zrepeat Z.to_nat repeat]. rewrite app_nil_r, set_rest_set_rest.
  destruct (parse_dictionary_in l v body g). reflexivity.
Qed.
Lemma header_in_shape w dt f sh :
  let D := len (dictionary_in w dt f sh) in
  exists pad, 0 <= pad < 64 /\ (10 + (D + pad + 1)) mod 64 = 0 /\
  write_npy_header_in w dt f sh =
    [147; 78; 85; 77; 80; 89; 1; 0; u8 (D + pad + 1); 0]
    ++ dictionary_in w dt f sh ++ zrepeat 32 pad ++ [10].
Proof.
  intros D. unfold write_npy_header_in. fold D. unfold STATIC_HEADER_LENGTH.
  set (h0 := D + 1 + 10). pose proof (len_nonneg _ (dictionary_in w dt f sh)) as HD. fold D in HD.
  pose proof (Z.div_mod h0 64 ltac:(lia)) as E. pose proof (Z.mod_pos_bound h0 64 ltac:(lia)) as B.
  destruct (h0 mod 64 =? 0) eqn:C.
  - apply Z.eqb_eq in C. exists 0. split; [lia|]. split.
    + replace (10 + (D + 0 + 1)) with h0 by (unfold h0; lia). exact C.
    + rewrite Z.add_0_r. cbn [zrepeat Z.to_nat repeat app]. reflexivity.
  - apply Z.eqb_neq in C. exists ((h0 / 64 + 1) * 64 - 10 - D - 1).
    split; [unfold h0 in *; lia|]. split.
    + replace (10 + (D + ((h0 / 64 + 1) * 64 - 10 - D - 1) + 1)) with ((h0 / 64 + 1) * 64) by lia.
      apply Z.mod_mul. lia.
    + replace (D + ((h0 / 64 + 1) * 64 - 10 - D - 1) + 1) with ((h0 / 64 + 1) * 64 - 10) by lia.
      reflexivity.
Qed.

Lemma shape_text_short w code f sh : len (shape_text w sh) <= len (dictionary_in w code f sh).
Proof.
  rewrite <- (app_nil_r (dictionary_in w code f sh)), dictionary_framed. unfold framed.
  pose proof (len_nonneg _ code). destruct f; lens; cbn [str map list_ascii_of_string]; lens; lia.
Qed.
Lemma read_framed w r v s g code d e n f sh sh' tail :
  map_ok (snd g) -> good s = true -> descr_denotes code d e n ->
  Forall (fun c => c <> 41) (shape_text w sh) -> parse_shape_in r (shape_text w sh) = Ok sh' ->
  len (dictionary_in w code f sh) <= 245 -> 246 <= mem v ->
  rest s = write_npy_header_in w code f sh ++ tail ->
  exists g', read_npy_header_in r v s g =
    (Ok (mk_header (Some d) (Some e) (Some f) sh' (Some n)), set_rest s tail, g') /\
    exists body, g' = snd (parse_dictionary_in r v body g).
Proof.
  intros Hm G Hd HT HP HD HM HR.
  destruct (header_in_shape w code f sh) as (pad & Hp & Hmod & HW).
  pose proof (shape_text_short w code f sh) as HT2.
  set (D := dictionary_in w code f sh) in *. pose proof (len_nonneg _ D) as HD0.
  assert (len D + pad + 1 < 256) as HB.
  { apply Z.mod_divide in Hmod; [|lia]. destruct Hmod as [k Hk]. lia. }
  pose proof (parse_framed r v g code d e n f (shape_text w sh) sh' (zrepeat 32 pad ++ [10]) Hm Hd HT ltac:(lia) HP) as HF.
  rewrite <- dictionary_framed in HF. fold D in HF.
  eexists. split; [|exists (D ++ zrepeat 32 pad ++ [10]); reflexivity].
  rewrite (read_header_in_v1 r v s g (u8 (len D + pad + 1)) 0 (D ++ zrepeat 32 pad ++ [10]) tail).
  - now rewrite HF.
  - exact G.
  - lens. unfold u8. rewrite Z.mod_small by lia. lia.
  - lens. assert (len D + pad + 1 <= 246); [|lia].
    apply Z.mod_divide in Hmod; [|lia]. destruct Hmod as [k Hk]. lia.
  - rewrite HR, HW. now rewrite <- !app_assoc.
Qed.
Lemma firstn_short m k es : short m es -> short m (firstn k es).
Proof. intros H. apply Forall_forall. intros x Hx. eapply Forall_forall in H; [exact H|]. rewrite <- (firstn_skipn k es). apply in_or_app. now left. Qed.
Lemma firstn_values d k es : values_ok d es -> values_ok d (firstn k es).
Proof. intros H. apply Forall_forall. intros x Hx. eapply Forall_forall in H; [exact H|]. rewrite <- (firstn_skipn k es). apply in_or_app. now left. Qed.

Definition read_as (t : tensor) (sh : list Z) : tensor :=
  mk_tensor sh (get_ravel_strides sh (t_fortran t)) (t_fortran t) (t_dtype t) (firstn (Z.to_nat (product sh mod 2 ^ 64)) (t_values t)).
Lemma load_framed w r v1 v2 t e s g sh tail :
  tensor_wf t -> parsed_before g -> good s = true -> fits_in w v1 t e ->
  Forall (fun c => c <> 41) (shape_text w (t_shape t)) -> parse_shape_in r (shape_text w (t_shape t)) = Ok sh ->
  product sh mod 2 ^ 64 <= t_size t -> room v2 t -> same_host_if_complex v1 v2 t -> Forall no_nuls (t_values t) ->
  (exists file, save_in w v1 t e = Ok file /\ rest s = file ++ tail) ->
  exists s' g', parsed_before g' /\ load_in r v2 (t_dtype t) s g = (Ok (read_as t sh), s', g') /\
    (product sh mod 2 ^ 64 = t_size t -> s' = set_rest s tail).
Proof.
  intros Hw Hg G [HF HL] HT HP HS [HM1 HM2] HC HN (file & HSv & R). rewrite save_in_file in HSv. injection HSv as <-.
  rewrite <- app_assoc in R. destruct Hw as (Hs & Hst & Hsz & Hv).
  set (big := means_big (host_big v1) e) in *.
  destruct (read_framed w r v2 s g _ _ _ _ (t_fortran t) (t_shape t) sh _ (before_map _ Hg) G
    (array_descr_denotes (t_dtype t) big (t_values t) HL) HT HP HF HM1 R) as (g' & HH & body & Hg').
  unfold load_in. rewrite HH.
  set (N := product sh mod 2 ^ 64) in *.
  assert (0 <= N) as HN0 by (apply Z.mod_pos_bound; lia).
  assert (get_size sh = N) as HG by (apply get_size_product).
  assert (1 <= item_size (t_dtype t)) as HI by (destruct (t_dtype t); vm_compute; discriminate).
  rewrite tensor_load_complete by (rewrite HG; nia). cbv zeta. rewrite HG.
  set (k := Z.to_nat N). set (m := longest (t_values t)).
  assert (read_values v2 (t_dtype t) (if raw_type (t_dtype t) then NATIVE else recorded_order (t_dtype t) big)
    (if is_string (t_dtype t) then match t_dtype t with UNICODE_STRING => m | _ => 0 end else 0)
    N (set_rest s (write_values v1 (t_dtype t) e (t_values t) ++ tail))
    = (firstn k (t_values t), set_rest s (flat_map (enc v1 (t_dtype t) e m) (skipn k (t_values t)) ++ tail))) as ->.
  { replace (if raw_type (t_dtype t) then NATIVE else recorded_order (t_dtype t) big) with (recorded_order (t_dtype t) big)
      by (destruct (raw_type (t_dtype t)) eqn:ER; [now apply raw_order|reflexivity]).
    assert (len (firstn k (t_values t)) = N) as HK.
    { unfold len. rewrite firstn_length. unfold t_size, len in HS. unfold k. lia. }
    pose proof (read_enc v1 v2 (t_dtype t) e m (firstn k (t_values t))
      (set_rest s (write_values v1 (t_dtype t) e (t_values t) ++ tail))
      (flat_map (enc v1 (t_dtype t) e m) (skipn k (t_values t)) ++ tail)
      (firstn_values _ _ _ Hv) (firstn_short _ _ _ (proj2 (longest_bounds _))) HC G) as HR.
    rewrite write_values_enc in *. cbn [rest set_rest] in HR.
    assert (flat_map (enc v1 (t_dtype t) e (longest (t_values t))) (t_values t) ++ tail =
      flat_map (enc v1 (t_dtype t) e m) (firstn k (t_values t)) ++ flat_map (enc v1 (t_dtype t) e m) (skipn k (t_values t)) ++ tail) as HE.
    { rewrite app_assoc, <- flat_map_app, firstn_skipn. reflexivity. }
    specialize (HR HE). rewrite set_rest_set_rest, HK in HR.
    assert (map drop_nuls (firstn k (t_values t)) = firstn k (t_values t)) as HD.
    { rewrite <- firstn_map. now rewrite drop_nuls_id. }
    rewrite HD in HR. rewrite <- HR. fold big. unfold read_values. destruct (t_dtype t); reflexivity. }
  cbn [fst snd]. eexists _, g'. split; [subst g'; now constructor|]. split; [reflexivity|].
  intros HE. rewrite skipn_all2; [reflexivity|]. unfold t_size, len in HE. unfold k. lia.
Qed.

(** ** Facts about pieces *)
Lemma pieces_nonneg gs d ps : pieces gs d ps -> 0 <= d /\ Forall (fun p => 0 <= p <= d) ps /\ ps <> [].
Proof.
  induction 1 as [g gs d Hd Hlt|g gs q r l Hg Hq Hr HP (H1 & H2 & H3)].
  - split; [lia|]. split; [repeat constructor; lia|discriminate].
  - assert (0 < 10 ^ g) by lia. split; [nia|]. split; [|destruct l; discriminate].
    apply Forall_app. split; [|repeat constructor; nia].
    eapply Forall_impl; [|exact H2]. cbv beta. intros a Ha. nia.
Qed.
Lemma pieces_product gs d ps : pieces gs d ps -> 0 <= product ps <= d.
Proof.
  assert (forall a b, product (a ++ b) = product a * product b) as HA.
  { induction a as [|x a IH]; intros b; cbn [app product]; [lia|]. rewrite IH. lia. }
  induction 1 as [g gs d Hd Hlt|g gs q r l Hg Hq Hr HP IH]; [cbn [product]; lia|].
  rewrite HA. cbn [product]. nia.
Qed.
Lemma product_app a b : product (a ++ b) = product a * product b.
Proof. induction a as [|x a IH]; cbn [app product]; [lia|]. rewrite IH. lia. Qed.
Lemma pieces_one gs d ps : a_group (hd 0 gs) -> pieces gs d ps -> (d < 10 ^ hd 0 gs -> ps = [d]) /\ (10 ^ hd 0 gs <= d -> (2 <= length ps)%nat).
Proof.
  intros HG H. revert HG. destruct H as [g gs' d' Hd Hlt|g gs' q r l Hg Hq Hr HP]; cbn [hd]; intros HG.
  - specialize (Hlt HG). split; [reflexivity|lia].
  - split; [intros; nia|]. intros _. destruct (pieces_nonneg _ _ _ HP) as (_ & _ & H).
    rewrite app_length. cbn [length]. destruct l; [congruence|cbn [length]; lia].
Qed.
Lemma groups_hd l : groups_digits l -> a_group (hd 0 (grouping l)).
Proof. unfold groups_digits. destruct (grouping l); [contradiction|auto]. Qed.
Lemma put_small l d : groups_digits l -> 0 <= d < 10 ^ hd 0 (grouping l) -> put_u64 l d = dec d.
Proof.
  intros HG Hd. destruct (pieces_exist l d HG ltac:(lia)) as [ps HP].
  destruct (put_parts l d ps HG HP) as (parts & H1 & H2 & H3 & H4 & H5 & H6).
  destruct (pieces_one _ _ _ (groups_hd _ HG) HP) as [HO _]. rewrite (HO ltac:(lia)) in H5.
  destruct parts as [|p [|p2 parts]]; try discriminate. rewrite H1, <- H2. cbn [joined concat]. now rewrite app_nil_r.
Qed.
Lemma put_large l d : groups_digits l -> is_digit (thousands_sep l) = false -> 10 ^ hd 0 (grouping l) <= d ->
  exists a c x y, dec d = a ++ c :: x /\ put_u64 l d = a ++ thousands_sep l :: y /\ digitb c.
Proof.
  intros HG HS Hd.
  assert (0 <= d) as H0 by (pose proof (Z.pow_nonneg 10 (hd 0 (grouping l)) ltac:(lia)); lia).
  destruct (pieces_exist l d HG H0) as [ps HP].
  destruct (put_parts l d ps HG HP) as (parts & H1 & H2 & H3 & H4 & H5 & H6).
  destruct (pieces_one _ _ _ (groups_hd _ HG) HP) as [_ HO]. specialize (HO Hd).
  destruct parts as [|p [|p2 parts]]; [congruence|subst ps; cbn in HO; lia|].
  destruct (Forall_inv (Forall_inv_tail H4)) as [Hp1 Hp2]. destruct p2 as [|c p2]; [congruence|].
  exists p, c. eexists _, _. split; [rewrite <- H2; reflexivity|]. split; [rewrite H1; reflexivity|]. exact (Forall_inv Hp2).
Qed.
Lemma small_text l sh : groups_digits l -> is_digit (thousands_sep l) = false -> shape_ok sh -> forall X Y,
  dims_text_in l sh ++ X = dims_text sh ++ Y -> Forall (fun d => d < 10 ^ hd 0 (grouping l)) sh.
Proof.
  intros HG HS. induction 1 as [|d sh Hd HF IH]; intros X Y E; [constructor|].
  assert (d < 10 ^ hd 0 (grouping l)) as HD.
  { destruct (Z_lt_ge_dec d (10 ^ hd 0 (grouping l))) as [|HL]; [assumption|exfalso].
    destruct (put_large l d HG HS ltac:(lia)) as (a & c & x & y & E1 & E2 & Hc).
    assert (exists X', dims_text_in l (d :: sh) ++ X = a ++ thousands_sep l :: X') as [X' E3].
    { destruct sh; cbn [dims_text_in]; rewrite E2, <- ?app_assoc; cbn [app]; eauto. }
    assert (exists Y', dims_text (d :: sh) ++ Y = a ++ c :: Y') as [Y' E4].
    { destruct sh; cbn [dims_text]; rewrite E1, <- ?app_assoc; cbn [app]; eauto. }
    rewrite E3, E4 in E. apply app_inv_head in E. injection E as E _. apply digit_is in Hc. congruence. }
  constructor; [exact HD|]. destruct sh as [|d2 sh]; [constructor|].
  change (dims_text_in l (d :: d2 :: sh)) with (put_u64 l d ++ str ", " ++ dims_text_in l (d2 :: sh)) in E.
  change (dims_text (d :: d2 :: sh)) with (dec d ++ str ", " ++ dims_text (d2 :: sh)) in E.
  rewrite put_small in E by (auto; lia). rewrite <- !app_assoc in E. apply app_inv_head in E. apply app_inv_head in E.
  now apply (IH X Y).
Qed.

(** ** C77 *)
(** In the classic locale, and in every other that does not group digits whatever its separator
    is, these are the functions of Header.v and Npy.v. *)
Theorem C77_classic : forall l v t e d s g, ~ groups_digits l ->
  save_in l v t e = save v t e /\ load_in l v d s g = load v d s g /\ read_npy_header_in l v s g = peek v s g.
Proof.
  intros l v t e d s g HG.
  assert (use_grouping l = false) as HU.
  { unfold groups_digits in HG. unfold use_grouping. destruct (grouping l) as [|x gs]; [reflexivity|].
    destruct (limited x) eqn:E; [|reflexivity]. now apply limited_is in E. }
  split; [|split; [now apply load_plain|now apply read_header_plain]].
  apply save_same. apply Forall_forall. intros. now apply put_plain.
Qed.
Print Assumptions C77_classic.

(** The bytes written are those of the classic locale exactly if no dimension needs a
    separator. *)
Theorem C77_what_is_written : forall l v t e, api_tensor t -> groups_digits l -> is_digit (thousands_sep l) = false ->
  (save_in l v t e = save v t e <-> Forall (fun d => d < 10 ^ hd 0 (grouping l)) (t_shape t)).
Proof.
  intros l v t e Ht HG HS. destruct (api_tensor_wf _ Ht) as (Hs & _). split.
  - rewrite save_in_file, save_file. intros E. injection E as E. apply app_inv_tail in E.
    set (code := array_descr _ _ _) in E.
    destruct (header_in_shape l code (t_fortran t) (t_shape t)) as (p1 & _ & _ & H1).
    destruct (write_npy_header_shape code (t_fortran t) (t_shape t)) as (p2 & _ & _ & H2).
    rewrite H1, H2 in E. cbn [app] in E. do 10 (apply (f_equal (@tl Z)) in E; cbn [tl] in E).
    unfold dictionary_in, dictionary in E. rewrite <- !app_assoc in E.
    do 5 (apply app_inv_head in E). eapply small_text; eauto.
  - intros HF. apply save_same. unfold shape_ok in Hs. rewrite Forall_forall in *. intros d Hd.
    specialize (HF d Hd). specialize (Hs d Hd). apply put_small; [exact HG|lia].
Qed.
Print Assumptions C77_what_is_written.

Lemma own_chunks l sh : groups_digits l -> is_digit (thousands_sep l) = false -> thousands_sep l <> 44 -> shape_ok sh ->
  Forall2 (fun d ds => chunk l (put_u64 l d) ds) sh (map (fun d => [d]) sh).
Proof.
  intros HG HS H44. induction 1 as [|d sh Hd HF IH]; [constructor|]. cbn [map]. constructor; [|exact IH].
  apply chunk_reads; [|apply reads_own; auto]. unfold comma_ok. destruct (use_grouping l); [|reflexivity].
  cbn [andb]. lia.
Qed.
Lemma concat_single (sh : list Z) : concat (map (fun d => [d]) sh) = sh.
Proof. induction sh as [|d sh IH]; [reflexivity|]. cbn [map concat app]. now rewrite IH. Qed.
Lemma joined_no x sep parts : Forall part parts -> sep <> x -> is_digit x = false -> Forall (fun c => c <> x) (joined sep parts).
Proof.
  intros HF Hs Hx.
  assert (forall p, part p -> Forall (fun c => c <> x) p) as HP.
  { intros p [_ Hp]. eapply Forall_impl; [|exact Hp]. cbv beta. intros a Ha ->. apply digit_is in Ha. congruence. }
  induction HF as [|p parts Hp HF IH]; [constructor|]. destruct parts as [|p2 parts]; [now apply HP|].
  change (joined sep (p :: p2 :: parts)) with (p ++ sep :: joined sep (p2 :: parts)).
  apply Forall_app. split; [now apply HP|]. constructor; auto.
Qed.
Lemma put_no41 l d : (groups_digits l /\ thousands_sep l <> 41) \/ use_grouping l = false -> 0 <= d -> Forall (fun c => c <> 41) (put_u64 l d).
Proof.
  intros [[HG H]|HU] Hd.
  - destruct (pieces_exist l d HG Hd) as [ps HP].
    destruct (put_parts l d ps HG HP) as (parts & -> & _ & _ & H4 & _). now apply joined_no.
  - rewrite put_plain by exact HU. eapply Forall_impl; [|now apply dec_digits]. unfold digitb. intros. lia.
Qed.
Lemma text_no41 l sh : (groups_digits l /\ thousands_sep l <> 41) \/ use_grouping l = false -> shape_ok sh -> Forall (fun c => c <> 41) (shape_text l sh).
Proof.
  intros HG Hs. unfold shape_text. apply Forall_app. split.
  - induction Hs as [|d sh Hd HF IH]; [constructor|]. pose proof (put_no41 l d HG ltac:(lia)) as HP.
    destruct sh as [|d2 sh]; [exact HP|].
    change (dims_text_in l (d :: d2 :: sh)) with (put_u64 l d ++ 44 :: 32 :: dims_text_in l (d2 :: sh)).
    apply Forall_app. split; [exact HP|]. constructor; [discriminate|]. constructor; [discriminate|exact IH].
  - destruct sh as [|a [|b sh]]; repeat constructor; discriminate.
Qed.
Lemma read_as_self t : tensor_wf t -> read_as t (t_shape t) = t.
Proof.
  intros (Hs & Hst & Hsz & Hv). unfold read_as. rewrite <- Hst, <- Hsz.
  assert (firstn (Z.to_nat (t_size t)) (t_values t) = t_values t) as -> by (apply firstn_all2; unfold t_size, len; lia).
  now destruct t.
Qed.

(** A separator other than the comma: arrays saved and loaded in such programs come back,
    and so do files of programs in the classic locale. *)
Theorem C77_round_trip_within : forall w l v1 v2 t e, w = l \/ w = classic ->
  groups_digits l -> is_digit (thousands_sep l) = false -> thousands_sep l <> 44 -> thousands_sep l <> 41 ->
  api_tensor t -> fits_in w v1 t e -> room v2 t -> same_host_if_complex v1 v2 t -> Forall no_nuls (t_values t) ->
  exists file, save_in w v1 t e = Ok file /\
  forall s g tail, good s = true -> parsed_before g -> rest s = file ++ tail ->
    exists g', load_in l v2 (t_dtype t) s g = (Ok t, set_rest s tail, g') /\ parsed_before g'.
Proof.
  intros w l v1 v2 t e Hw HG HD H44 H41 Ht HF HR HC HN. eexists. split; [apply save_in_file|]. intros s g tail G Hg R.
  pose proof (api_tensor_wf _ Ht) as Hwf. pose proof Hwf as (Hs & _ & Hsz & _).
  assert (comma_ok l) as HO by (unfold comma_ok; destruct (use_grouping l); [cbn [andb]; lia|reflexivity]).
  assert (parse_shape_in l (shape_text w (t_shape t)) = Ok (t_shape t)) as HP.
  { apply toks_shape. rewrite <- (concat_single (t_shape t)) at 2. apply shape_toks.
    destruct Hw as [->| ->]; [now apply own_chunks|].
    clear -Hs HO HD. induction Hs as [|d sh Hd HF IH]; [constructor|]. cbn [map]. constructor; [|exact IH].
    rewrite put_plain by reflexivity. apply chunk_reads; [exact HO|]. rewrite <- (dec_value d) at 2 by lia.
    apply reads_digits; [auto|split; [apply dec_nonempty|apply dec_digits; lia]|rewrite dec_value; lia]. }
  destruct (load_framed w l v1 v2 t e s g (t_shape t) tail Hwf Hg G HF) as (s' & g' & Hg' & HL & HE); auto.
  - apply text_no41; [|exact Hs]. destruct Hw as [->| ->]; auto.
  - lia.
  - eexists. split; [apply save_in_file|exact R].
  - exists g'. rewrite HL, read_as_self by exact Hwf. rewrite HE by lia. auto.
Qed.
Print Assumptions C77_round_trip_within.

(** The comma as separator: an array with one dimension or more, saved in the same locale or in
    the classic one, comes back as a single value without dimensions, and nothing is reported. *)
Lemma comma_stops l w d u : groups_digits l -> thousands_sep l = 44 -> w = l \/ w = classic -> 0 <= d -> u = [] \/ (exists u', u = 32 :: u') ->
  forall s, good s = true -> rest s = put_u64 w d ++ 44 :: u -> fst (get_u64 l s) = None.
Proof.
  intros HG H44 Hw Hd Hu s G R. pose proof (grouping_on _ HG) as HU.
  assert (exists parts, put_u64 w d = joined 44 parts /\ Forall part parts /\ parts <> []) as (parts & HJ & HP & HN).
  { destruct Hw as [->| ->].
    - destruct (pieces_exist l d HG Hd) as [ps Hps]. destruct (put_parts l d ps HG Hps) as (parts & H1 & _ & H3 & H4 & _).
      exists parts. now rewrite H1, H44.
    - exists [dec d]. rewrite put_plain by reflexivity. split; [reflexivity|]. split; [|discriminate].
      constructor; [|constructor]. split; [apply dec_nonempty|now apply dec_digits]. }
  assert (follow l u) as HFo.
  { destruct Hu as [->|[u' ->]]; [exact I|]. split; [reflexivity|]. rewrite H44, HU. reflexivity. }
  rewrite HJ in R. destruct (joined_head 44 parts HP HN) as (c & t & HE & Hc).
  unfold get_u64. rewrite G, R, HE. cbn [app]. rewrite drop_spaces_nonspace by now apply digit_not_space.
  assert (c =? 45 = false /\ c =? 43 = false) as [-> ->] by (unfold digitb in Hc; lia). cbn [andb orb].
  rewrite (app_comm_cons t _ c), <- HE, <- H44. rewrite scan_joined; [|exact HU|now rewrite H44|exact HP|exact HN].
  assert (0 < len (last parts [])) as HL.
  { assert (part (last parts [])) as [HL _].
    { rewrite (app_removelast_last [] HN) in HP. apply Forall_app in HP as [_ HP]. now inversion HP. }
    destruct (last parts []) as [|x y]; [congruence|]. rewrite len_cons. pose proof (len_nonneg _ y). lia. }
  cbn [scan]. rewrite HU, Z.eqb_refl. cbn [andb]. destruct (len (last parts []) =? 0) eqn:E; [lia|].
  rewrite scan_follow by exact HFo. set (found := (_ ++ _) ++ _).
  assert (verify (grouping l) (rev (found ++ [0])) = false) as HV.
  { unfold groups_digits in HG. rewrite rev_app_distr. cbn [rev app]. destruct (grouping l) as [|g gs]; [contradiction|].
    unfold a_group in HG. rewrite verify_cons.
    - destruct (0 =? g) eqn:E0; [lia|reflexivity].
    - unfold found. rewrite rev_app_distr. discriminate. }
  destruct found as [|x y] eqn:EF; [unfold found in EF; destruct (_ ++ map len (removelast parts)) in EF; discriminate|].
  rewrite HV. cbn [app orb negb]. destruct (concat parts); reflexivity.
Qed.
Theorem C77_comma_locale_reads_no_shape : forall w l v1 v2 t e, w = l \/ w = classic ->
  groups_digits l -> thousands_sep l = 44 ->
  api_tensor t -> t_shape t <> [] -> 1 <= t_size t ->
  fits_in w v1 t e -> room v2 t -> same_host_if_complex v1 v2 t -> Forall no_nuls (t_values t) ->
  exists file, save_in w v1 t e = Ok file /\
  forall s g tail, good s = true -> parsed_before g -> rest s = file ++ tail ->
    exists t' s' g', load_in l v2 (t_dtype t) s g = (Ok t', s', g') /\ parsed_before g' /\
      t_shape t' = [] /\ t_dtype t' = t_dtype t /\ t_values t' = firstn 1 (t_values t).
Proof.
  intros w l v1 v2 t e Hw HG H44 Ht HS1 HS2 HF HR HC HN. eexists. split; [apply save_in_file|]. intros s g tail G Hg R.
  pose proof (api_tensor_wf _ Ht) as Hwf. pose proof Hwf as (Hs & _ & Hsz & _).
  assert (parse_shape_in l (shape_text w (t_shape t)) = Ok []) as HP.
  { apply toks_shape. apply toks_stop. intros s0 G0 R0. destruct (t_shape t) as [|d [|d2 sh]]; [congruence| |].
    - apply (comma_stops l w d [] HG H44 Hw ltac:(inversion Hs; lia) (or_introl eq_refl) s0 G0).
      rewrite R0. reflexivity.
    - apply (comma_stops l w d (32 :: dims_text_in w (d2 :: sh)) HG H44 Hw ltac:(inversion Hs; lia)) with (s := s0); [eauto|exact G0|].
      rewrite R0. unfold shape_text. rewrite app_nil_r. reflexivity. }
  destruct (load_framed w l v1 v2 t e s g [] tail Hwf Hg G HF) as (s' & g' & Hg' & HL & _); auto.
  - apply text_no41; [|exact Hs]. destruct Hw as [->| ->]; [left|right; reflexivity]. split; [exact HG|lia].
  - eexists. split; [apply save_in_file|exact R].
  - exists (read_as t []), s', g'. repeat split; auto.
Qed.
Print Assumptions C77_comma_locale_reads_no_shape.

(** Files written in a grouping locale and read in the classic one. *)
Lemma prior_before g : prior_parses g -> parsed_before g.
Proof.
  induction 1 as [|v d g H IH]; [constructor|]. rewrite <- (parse_dictionary_plain classic) by reflexivity. now constructor.
Qed.
Lemma parts_bounded parts ps d : map digits_value parts = ps -> Forall (fun p => 0 <= p <= d) ps -> d <= max64 ->
  Forall (fun p => digits_value p <= max64) parts.
Proof.
  intros <- HF Hd. induction parts as [|p parts IH]; [constructor|]. cbn [map] in HF. inversion HF; subst. constructor; [lia|auto].
Qed.
Lemma classic_digits p : part p -> digits_value p <= max64 -> reads classic p (digits_value p).
Proof. intros H1 H2. apply reads_digits; [discriminate|exact H1|exact H2]. Qed.
Lemma split_chunk sep parts : sep = 44 \/ is_space sep = true -> Forall part parts -> parts <> [] ->
  Forall (fun p => digits_value p <= max64) parts -> chunk classic (joined sep parts) (map digits_value parts).
Proof.
  intros Hsep HF HN HB. induction HF as [|p parts Hp HF IH]; [congruence|].
  pose proof (Forall_inv HB) as Hb. apply Forall_inv_tail in HB. pose proof (classic_digits p Hp Hb) as HR.
  destruct parts as [|p2 parts].
  - apply chunk_reads; [reflexivity|exact HR].
  - destruct (IH ltac:(discriminate) HB) as (Hd & HT & HX). clear IH.
    change (joined sep (p :: p2 :: parts)) with (p ++ sep :: joined sep (p2 :: parts)).
    change (map digits_value (p :: p2 :: parts)) with (digits_value p :: map digits_value (p2 :: parts)).
    set (J := joined sep (p2 :: parts)) in *. set (V := map digits_value (p2 :: parts)) in *. clearbody J V.
    assert (forall X es, head_ok X -> X <> [] -> toks classic X es -> toks classic (p ++ sep :: X) (digits_value p :: es)) as HS.
    { intros X es Hh Hx HTx. destruct Hsep as [->|Hsp].
      - apply (toks_comma classic p (digits_value p) [] X es); auto; [|constructor]. now apply follow_comma.
      - apply toks_other; [exact HR| | |now apply toks_blank].
        + split; [unfold is_space in Hsp; unfold is_digit; lia|reflexivity].
        + destruct (Z.eq_dec sep 44) as [->|Hne]; [discriminate Hsp|].
          destruct sep as [|q|q]; try exact I. do 6 (destruct q as [q|q|]; try exact I). exfalso. now apply Hne. }
    destruct Hd as (c & u & HJ & Hc).
    split; [destruct Hp as [Hp1 Hp2]; destruct p as [|c0 p0]; [congruence|]; exists c0; eexists; split; [reflexivity|exact (Forall_inv Hp2)]|].
    split.
    + apply HS; [rewrite HJ; now apply digit_head_ok|rewrite HJ; discriminate|exact HT].
    + intros w t es Hw Hh HTt. rewrite <- app_assoc. cbn [app]. apply HS; [rewrite HJ; now apply digit_head_ok|rewrite HJ; discriminate|].
      now apply HX.
Qed.
Lemma split_chunks w sh dss : groups_digits w -> thousands_sep w = 44 \/ is_space (thousands_sep w) = true -> shape_ok sh ->
  Forall2 (pieces (grouping w)) sh dss -> Forall2 (fun d ds => chunk classic (put_u64 w d) ds) sh dss.
Proof.
  intros HG Hsep Hs H. induction H as [|d ds sh dss Hd HF IH]; [constructor|]. inversion Hs as [|? ? Hd1 Hs']; subst.
  constructor; [|now apply IH]. destruct (put_parts w d ds HG Hd) as (parts & -> & _ & H3 & H4 & <- & _).
  apply split_chunk; auto. destruct (pieces_nonneg _ _ _ Hd) as (_ & HB & _).
  eapply parts_bounded; [reflexivity|exact HB|lia].
Qed.
Lemma concat_product gs sh dss : Forall2 (pieces gs) sh dss -> 0 <= product (concat dss) <= product sh.
Proof.
  induction 1 as [|d ds sh dss Hd HF IH]; cbn [concat product]; [lia|]. rewrite product_app.
  pose proof (pieces_product _ _ _ Hd). nia.
Qed.
(** ... with the comma, or a blank, as separator: every dimension is taken apart, and the array that
    comes back has more dimensions and not more elements. *)
Theorem C77_separators_become_dimensions : forall w v1 v2 t e dss,
  groups_digits w -> thousands_sep w = 44 \/ is_space (thousands_sep w) = true ->
  api_tensor t -> product (t_shape t) < 2 ^ 64 ->
  fits_in w v1 t e -> room v2 t -> same_host_if_complex v1 v2 t -> Forall no_nuls (t_values t) ->
  Forall2 (pieces (grouping w)) (t_shape t) dss ->
  exists file, save_in w v1 t e = Ok file /\
  forall s g tail, good s = true -> prior_parses g -> rest s = file ++ tail ->
    exists t' s' g', load v2 (t_dtype t) s g = (Ok t', s', g') /\
      t_shape t' = concat dss /\ t_dtype t' = t_dtype t /\ t_fortran t' = t_fortran t /\
      t_values t' = firstn (Z.to_nat (product (concat dss))) (t_values t).
Proof.
  intros w v1 v2 t e dss HG Hsep Ht HPr HF HR HC HN HD. eexists. split; [apply save_in_file|]. intros s g tail G Hg R.
  pose proof (api_tensor_wf _ Ht) as Hwf. pose proof Hwf as (Hs & _ & Hsz & _).
  pose proof (concat_product _ _ _ HD) as HB.
  destruct (load_framed w classic v1 v2 t e s g (concat dss) tail Hwf (prior_before _ Hg) G HF) as (s' & g' & _ & HL & _); auto.
  - apply text_no41; [left|exact Hs]. split; [exact HG|]. destruct Hsep as [->|Hsep]; [discriminate|]. intros E. rewrite E in Hsep. discriminate.
  - apply toks_shape, shape_toks, split_chunks; auto.
  - rewrite Hsz, !Z.mod_small by lia. lia.
  - eexists. split; [apply save_in_file|exact R].
  - rewrite load_plain in HL by reflexivity. exists (read_as t (concat dss)), s', g'. split; [exact HL|].
    repeat split. unfold read_as. cbn [t_values]. rewrite Z.mod_small by lia. reflexivity.
Qed.
Print Assumptions C77_separators_become_dimensions.
(** That is another shape as soon as one dimension needs a separator. *)
Theorem C77_another_shape : forall gs sh dss, a_group (hd 0 gs) -> Forall2 (pieces gs) sh dss ->
  (concat dss = sh <-> Forall (fun d => d < 10 ^ hd 0 gs) sh) /\
  (Exists (fun d => 10 ^ hd 0 gs <= d) sh -> (length sh < length (concat dss))%nat).
Proof.
  intros gs sh dss HG H.
  assert ((length sh <= length (concat dss))%nat /\
    (Exists (fun d => 10 ^ hd 0 gs <= d) sh -> (length sh < length (concat dss))%nat) /\
    (Forall (fun d => d < 10 ^ hd 0 gs) sh -> concat dss = sh)) as (H1 & H2 & H3).
  { induction H as [|d ds sh dss Hd HF (I1 & I2 & I3)]; [cbn; repeat split; auto; intros E; inversion E|].
    destruct (pieces_one _ _ _ HG Hd) as [P1 P2]. destruct (pieces_nonneg _ _ _ Hd) as (_ & _ & P3).
    cbn [concat length]. rewrite app_length. assert (1 <= length ds)%nat by (destruct ds; [congruence|cbn; lia]).
    split; [lia|]. split.
    - intros E. inversion E as [? ? E1|? ? E1]; subst; [specialize (P2 E1); lia|specialize (I2 E1); lia].
    - intros E. inversion E as [|? ? E1 E2]; subst. now rewrite (P1 E1), (I3 E2). }
  split; [|exact H2]. split; [|exact H3]. intros E. apply Forall_forall. intros d Hd.
  destruct (Z_lt_ge_dec d (10 ^ hd 0 gs)) as [|HL]; [assumption|exfalso].
  assert (Exists (fun d => 10 ^ hd 0 gs <= d) sh) as HX by (apply Exists_exists; exists d; split; [exact Hd|lia]).
  specialize (H2 HX). rewrite E in H2. lia.
Qed.
Print Assumptions C77_another_shape.

(** ... with any other separator: the shape ends at the first separator. *)
Fixpoint up_to_separator (dss : list (list Z)) : list Z :=
  match dss with
  | [d] :: t => d :: up_to_separator t
  | (p :: _) :: _ => [p]
  | _ => []
  end.
Lemma cut_toks w sh dss : groups_digits w -> is_digit (thousands_sep w) = false -> is_space (thousands_sep w) = false ->
  Forall (fun c => thousands_sep w <> c) [44; 43; 45] -> shape_ok sh ->
  Forall2 (pieces (grouping w)) sh dss -> toks classic (shape_text w sh) (up_to_separator dss).
Proof.
  intros HG HD HSp HC Hs H.
  assert (thousands_sep w <> 44 /\ thousands_sep w <> 43 /\ thousands_sep w <> 45) as (H44 & H43 & H45).
  { inversion HC as [|? ? A B]; inversion B as [|? ? A2 B2]; inversion B2 as [|? ? A3 B3]; subst. auto. }
  assert (forall tail, (tail = [] \/ tail = [44]) -> toks classic (dims_text_in w sh ++ (match sh with [] => [] | _ => tail end)) (up_to_separator dss)) as HK.
  { induction H as [|d ds sh dss Hd HF IH]; intros tail HT; [apply toks_nil|]. inversion Hs as [|? ? Hd1 Hs']; subst.
    destruct (put_parts w d ds HG Hd) as (parts & HP & _ & H3 & H4 & H5 & _).
    destruct (pieces_nonneg _ _ _ Hd) as (_ & HB & _).
    pose proof (parts_bounded parts ds d H5 HB ltac:(lia)) as HBp.
    destruct parts as [|p [|p2 parts]]; [congruence| |].
    - cbn [map] in H5. subst ds. cbn [joined] in HP. pose proof (classic_digits p (Forall_inv H4) (Forall_inv HBp)) as HR.
      cbn [up_to_separator]. destruct sh as [|d2 sh].
      + assert (dss = []) as -> by (now inversion HF). cbn [dims_text_in up_to_separator]. rewrite HP. destruct HT as [->| ->].
        * apply toks_other; [exact HR|exact I|exact I|apply toks_nil].
        * apply (toks_comma classic p (digits_value p) [] [] []); auto; [now apply follow_comma|constructor|exact I|apply toks_nil].
      + change (dims_text_in w (d :: d2 :: sh)) with (put_u64 w d ++ 44 :: [32] ++ dims_text_in w (d2 :: sh)). rewrite HP.
        replace ((p ++ 44 :: [32] ++ dims_text_in w (d2 :: sh)) ++ tail)
          with (p ++ 44 :: [32] ++ (dims_text_in w (d2 :: sh) ++ tail)) by (rewrite <- app_assoc; reflexivity).
        apply toks_comma; [exact HR|now apply follow_comma|repeat constructor| |now apply IH].
        inversion HF as [|? ds2 ? ? Hd2 _]; subst. destruct (put_parts w d2 ds2 HG Hd2) as (parts2 & HP2 & _ & N2 & F2 & _).
        destruct (joined_head (thousands_sep w) parts2 F2 N2) as (c & u & HE & Hc).
        destruct sh; cbn [dims_text_in]; rewrite HP2, HE; now apply digit_head_ok.
    - cbn [map] in H5. subst ds. pose proof (classic_digits p (Forall_inv H4) (Forall_inv HBp)) as HR.
      assert (exists X, dims_text_in w (d :: sh) ++ tail = p ++ thousands_sep w :: X) as [X ->].
      { change (joined (thousands_sep w) (p :: p2 :: parts)) with (p ++ thousands_sep w :: joined (thousands_sep w) (p2 :: parts)) in HP.
        destruct sh; cbn [dims_text_in]; rewrite HP, <- ?app_assoc; cbn [app]; eauto. }
      cbn [up_to_separator]. apply toks_other; [exact HR|split; [exact HD|reflexivity]| |].
      + destruct (thousands_sep w) as [|q|q]; try exact I. do 6 (destruct q as [q|q|]; try exact I). now apply H44.
      + apply toks_stop. intros s0 G0 R0. unfold get_u64. rewrite G0, R0.
        rewrite drop_spaces_nonspace by exact HSp.
        destruct (thousands_sep w =? 45) eqn:E1; [lia|]. destruct (thousands_sep w =? 43) eqn:E2; [lia|].
        change (use_grouping classic) with false. cbn [andb negb orb scan]. change (use_grouping classic) with false. cbn [andb].
        rewrite HD. reflexivity. }
  unfold shape_text. destruct sh as [|d [|d2 sh]].
  - apply (HK []). auto.
  - apply (HK [44]). auto.
  - apply (HK []). auto.
Qed.
Theorem C77_other_separators_cut : forall w v1 v2 t e dss,
  groups_digits w -> is_digit (thousands_sep w) = false -> is_space (thousands_sep w) = false ->
  Forall (fun c => thousands_sep w <> c) [44; 43; 45] -> thousands_sep w <> 41 ->
  api_tensor t -> fits_in w v1 t e -> room v2 t -> same_host_if_complex v1 v2 t -> Forall no_nuls (t_values t) ->
  Forall2 (pieces (grouping w)) (t_shape t) dss ->
  0 <= product (up_to_separator dss) <= t_size t -> t_size t < 2 ^ 64 ->
  exists file, save_in w v1 t e = Ok file /\
  forall s g tail, good s = true -> prior_parses g -> rest s = file ++ tail ->
    exists t' s' g', load v2 (t_dtype t) s g = (Ok t', s', g') /\
      t_shape t' = up_to_separator dss /\ t_dtype t' = t_dtype t /\ t_fortran t' = t_fortran t /\
      t_values t' = firstn (Z.to_nat (product (up_to_separator dss))) (t_values t).
Proof.
  intros w v1 v2 t e dss HG HD HSp HCs H41 Ht HF HR HC HN HDs HB H64. eexists. split; [apply save_in_file|]. intros s g tail G Hg R.
  pose proof (api_tensor_wf _ Ht) as Hwf. pose proof Hwf as (Hs & _ & Hsz & _).
  destruct (load_framed w classic v1 v2 t e s g (up_to_separator dss) tail Hwf (prior_before _ Hg) G HF) as (s' & g' & _ & HL & _); auto.
  - apply text_no41; [left|exact Hs]. auto.
  - apply toks_shape, cut_toks; auto.
  - rewrite Z.mod_small by lia. lia.
  - eexists. split; [apply save_in_file|exact R].
  - rewrite load_plain in HL by reflexivity. exists (read_as t (up_to_separator dss)), s', g'. split; [exact HL|].
    repeat split. unfold read_as. cbn [t_values]. rewrite Z.mod_small by lia. reflexivity.
Qed.
Print Assumptions C77_other_separators_cut.

(** Arrays of four dimensions or fewer always fit. *)
Lemma joined_len sep parts : Forall part parts -> parts <> [] -> len (joined sep parts) <= 2 * len (concat parts) - 1.
Proof.
  intros HF HN. induction HF as [|p parts [Hp _] HF IH]; [congruence|].
  assert (1 <= len p) by (destruct p; [congruence|]; rewrite len_cons; pose proof (len_nonneg _ p); lia).
  destruct parts as [|p2 parts]; [cbn [joined concat]; rewrite app_nil_r; lia|].
  change (joined sep (p :: p2 :: parts)) with (p ++ sep :: joined sep (p2 :: parts)).
  change (concat (p :: p2 :: parts)) with (p ++ concat (p2 :: parts)).
  specialize (IH ltac:(discriminate)). rewrite !len_app, len_cons. lia.
Qed.
Lemma put_len l d : groups_digits l -> 0 <= d <= max64 -> len (put_u64 l d) <= 39.
Proof.
  intros HG Hd. destruct (pieces_exist l d HG ltac:(lia)) as [ps HP].
  destruct (put_parts l d ps HG HP) as (parts & -> & H2 & H3 & H4 & _).
  pose proof (joined_len (thousands_sep l) parts H4 H3) as HL. rewrite H2 in HL. pose proof (dec_len_u64 d Hd). lia.
Qed.
Lemma dims_len l sh : groups_digits l -> shape_ok sh -> len (dims_text_in l sh) <= 41 * len sh.
Proof.
  intros HG. induction 1 as [|d sh Hd HF IH]; [cbn; lia|]. pose proof (put_len l d HG Hd) as HP. rewrite len_cons.
  destruct sh as [|d2 sh]; [cbn [dims_text_in]; change (len []) with 0; lia|].
  change (dims_text_in l (d :: d2 :: sh)) with (put_u64 l d ++ str ", " ++ dims_text_in l (d2 :: sh)).
  rewrite !len_app. change (len (str ", ")) with 2. lia.
Qed.
Theorem C77_four_dimensions_fit : forall l v t e, api_tensor t -> groups_digits l -> (length (t_shape t) <= 4)%nat ->
  longest (t_values t) <= 2147483647 -> fits_in l v t e.
Proof.
  intros l v t e Ht HG H4 HL. destruct (api_tensor_wf _ Ht) as (Hs & _). split; [|exact HL].
  pose proof (dims_len l _ HG Hs) as HD. unfold dictionary_in.
  pose proof (denotes_len _ _ _ _ (array_descr_denotes (t_dtype t) (means_big (host_big v) e) (t_values t) HL)) as HC.
  set (code := array_descr _ _ _) in *. rewrite !len_app.
  repeat match goal with |- context [len (str ?s)] => let x := eval vm_compute in (len (str s)) in change (len (str s)) with x end.
  assert (len (if t_fortran t then str "True" else str "False") <= 5) by (destruct (t_fortran t); vm_compute; discriminate).
  assert (len (match t_shape t with [_] => str "," | _ => [] end) <= 1) by (destruct (t_shape t) as [|? [|? ?]]; vm_compute; discriminate).
  assert (len (t_shape t) <= 4) by (unfold len; lia).
  lia.
Qed.
Print Assumptions C77_four_dimensions_fit.

(** Most English-language locales write 1,234,567; German ones 1.234.567; Indian ones 12,34,567.
    A locale may have one group only, 1234 567, or name a separator and not use it. *)
Definition english : locale := mk_locale 44 [3].
Definition german : locale := mk_locale 46 [3].
Definition indian : locale := mk_locale 44 [3; 2].
Definition once : locale := mk_locale 32 [3; 127].
Definition unused : locale := mk_locale 46 [127].
Definition case_row : tensor := mk_tensor [2; 1234] [1234; 1] false UINT8 (zrepeat (Scalar 0) 2468).
Example C77_case :
  Forall groups_digits [english; german; indian; once] /\ Forall (fun l => ~ groups_digits l) [classic; unused] /\
  map (fun l => put_u64 l 1234567) [english; german; indian; once; unused]
    = [str "1,234,567"; str "1.234.567"; str "12,34,567"; str "1234 567"; str "1234567"] /\
  pieces [3] 1234567 [1; 234; 567] /\ pieces [3; 2] 1234567 [12; 34; 567] /\ pieces [3; 127] 1234567 [1234; 567] /\
  api_tensor case_row /\ room case_env case_row /\ fits_in english case_env case_row NATIVE /\
  Forall2 (pieces [3]) (t_shape case_row) [[2]; [1; 234]] /\
  up_to_separator [[2]; [1; 234]] = [2; 1] /\ parsed_before (zrepeat 0 65536, DTYPE_MAP).
Proof.
  assert (Forall groups_digits [english; german; indian; once]) as HG
    by (apply Forall_forall; intros l Hl; cbn [In] in Hl; unfold groups_digits, a_group;
        repeat (destruct Hl as [<-|Hl]; [cbn; lia|]); contradiction).
  assert (pieces [3] 1234 [1; 234]) as HP
    by (apply (piece_more 3 [] 1 234 [1]); [red; lia|lia|lia|constructor; [lia|intros _; cbn [further]; lia]]).
  assert (api_tensor case_row) as HA.
  { apply (by_ctor case_env UINT8 [2; 1234] false case_row); [repeat constructor; vm_compute; discriminate|reflexivity]. }
  split; [exact HG|]. split; [constructor; [|constructor; [|constructor]]; unfold groups_digits, a_group; cbn; lia|]. split; [reflexivity|].
  split; [apply (piece_more 3 [] 1234 567 [1; 234]); [red; lia|lia|lia|exact HP]|].
  split; [apply (piece_more 3 [2] 1234 567 [12; 34]); [red; lia|lia|lia|]; apply (piece_more 2 [] 12 34 [12]); [red; lia|lia|lia|constructor; [lia|intros _; lia]]|].
  split; [apply (piece_more 3 [127] 1234 567 [1234]); [red; lia|lia|lia|constructor; [lia|unfold a_group; lia]]|].
  split; [exact HA|]. split; [split; vm_compute; discriminate|].
  split; [apply C77_four_dimensions_fit; [exact HA|exact (Forall_inv HG)|vm_compute; lia|vm_compute; discriminate]|].
  split; [constructor; [constructor; [lia|intros _; lia]|constructor; [exact HP|constructor]]|]. split; [reflexivity|constructor].
Qed.
