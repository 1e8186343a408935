(** The output window of tinfl, and copies in it. *)
From Coq Require Import ZArith List Bool Lia.
From Verif Require Import Base BaseFacts Arr DeflateSpec Tinfl BitFacts HuffFacts HuffBuild.
Import ListNotations.
Open Scope Z_scope.

(** the window holds the last 32768 bytes of what was produced *)
Definition win (q : Z) (d : arr) (c : Z) (out : bytes) : Prop :=
  0 <= c <= 32768 /\ (0 <= q /\ len out = q * 32768 + c) /\
  forall i, 0 <= i < len out -> len out - 32768 <= i -> arr_find d (i mod 32768) = znth out i.
Definition prefix (a b : bytes) : Prop := exists r, b = a ++ r.

Lemma len_app_ge {A} K (a b : list A) : K <= len b -> K <= len (a ++ b).
Proof. intros. rewrite len_app. pose proof (len_nonneg _ a). lia. Qed.
Ltac more_bits := cbn [app]; repeat first [assumption | apply len_app_ge].
Lemma prefix_trans a b c : prefix a b -> prefix b c -> prefix a c.
Proof. intros [r ->] [r' ->]. exists (r ++ r'). apply app_assoc_reverse. Qed.
Lemma prefix_app a b : prefix a (a ++ b). Proof. now exists b. Qed.
Lemma prefix_refl a : prefix a a. Proof. exists []. now rewrite app_nil_r. Qed.
Lemma znth_app1 {A} (a b : list A) i : i < len a -> znth (a ++ b) i = znth a i.
Proof.
  intros H. unfold znth. destruct (i <? 0) eqn:E; [reflexivity|]. apply nth_error_app1. unfold len in H. lia.
Qed.
Lemma znth_app2 {A} (a b : list A) i : len a <= i -> znth (a ++ b) i = znth b (i - len a).
Proof.
  intros H. unfold znth. pose proof (len_nonneg _ a). replace (i <? 0) with false by lia.
  replace (i - len a <? 0) with false by lia. rewrite nth_error_app2 by (unfold len in *; lia).
  f_equal. unfold len in *. lia.
Qed.
Lemma znth_nth {A} (l : list A) i d : 0 <= i < len l -> znth l i = Some (nth (Z.to_nat i) l d).
Proof.
  intros H. unfold znth. replace (i <? 0) with false by lia. apply nth_error_nth'. unfold len in H. lia.
Qed.
Lemma win_pos q d c out : win q d c out -> c < 32768 -> len out mod 32768 = c.
Proof.
  intros (Hc & (Hq & E) & _) H. rewrite E. rewrite Z.add_comm, Z_mod_plus_full. apply Z.mod_small. lia.
Qed.
Lemma mod_near a b n : 0 < n -> 0 < b - a < n -> a mod n <> b mod n.
Proof.
  intros Hn H E. assert ((b - a) mod n = 0) as Z0 by (rewrite Zminus_mod, E, Z.sub_diag; apply Z.mod_0_l; lia).
  rewrite Z.mod_small in Z0; lia.
Qed.
Lemma win_push q d c out x : win q d c out -> c < 32768 -> win q (arr_set d c x) (c + 1) (out ++ [x]).
Proof.
  intros W Hc. pose proof (win_pos q d c out W Hc) as P. destruct W as (H0 & (Hq & E) & Hw).
  assert (len (out ++ [x]) = len out + 1) as El by (rewrite len_app; reflexivity).
  split; [lia|]. split; [lia|].
  intros i Hi Hi2. destruct (Z.eq_dec i (len out)) as [->|Hne].
  - rewrite P, arr_find_same, znth_app2, Z.sub_diag by lia. reflexivity.
  - rewrite arr_find_other.
    + rewrite znth_app1 by lia. apply Hw; lia.
    + lia.
    + apply Z.mod_pos_bound. lia.
    + rewrite <- P. apply not_eq_sym. apply mod_near; lia.
Qed.
Lemma win_all q d c out l : win q d c out -> c + len l <= 32768 -> win q (write_all d c l) (c + len l) (out ++ l).
Proof.
  revert d c out. induction l as [|x l IH]; intros d c out W H; cbn [write_all].
  - rewrite len_nil, Z.add_0_r, app_nil_r. exact W.
  - rewrite len_cons in *. pose proof (len_nonneg _ l).
    replace (c + (1 + len l)) with (c + 1 + len l) by lia.
    replace (out ++ x :: l) with ((out ++ [x]) ++ l) by (rewrite <- app_assoc; reflexivity).
    apply IH; [|lia]. apply win_push; [exact W|lia].
Qed.
Lemma win_wrap q d out : win q d 32768 out -> win (q + 1) d 0 out.
Proof.
  intros (_ & (Hq & E) & Hw). split; [lia|]. split; [|exact Hw]. lia.
Qed.
Lemma win_get q d c out dist : win q d c out -> 1 <= dist <= len out -> dist <= 32768 ->
  dict_get d ((len out - dist) mod 32768) = Ok (nth (Z.to_nat (len out - dist)) out 0).
Proof.
  intros (_ & _ & Hw) Hd H. unfold dict_get, TINFL_LZ_DICT_SIZE.
  pose proof (Z.mod_pos_bound (len out - dist) 32768 ltac:(lia)).
  replace ((0 <=? (len out - dist) mod 32768) && ((len out - dist) mod 32768 <? 32768)) with true by lia.
  rewrite Hw by lia. rewrite (znth_nth out _ 0) by lia. reflexivity.
Qed.
Lemma copy_snoc_len n d out : len (copy n d out) = len out + Z.of_nat n.
Proof.
  revert out. induction n as [|n IH]; intros out; cbn [copy]; [lia|]. rewrite IH, len_app.
  change (len [nth (Z.to_nat (len out - d)) out 0]) with 1. lia.
Qed.
Lemma copy_prefix n d out : prefix out (copy n d out).
Proof.
  revert out. induction n as [|n IH]; intros out; cbn [copy]; [apply prefix_refl|].
  eapply prefix_trans; [|apply IH]. apply prefix_app.
Qed.

(** ** Copies inside the window *)
Lemma move_bytes_ok : forall n src q d c out dist,
  win q d c out -> c + Z.of_nat n <= 32768 -> src + Z.of_nat n <= 32768 ->
  1 <= dist <= len out -> dist <= 32768 -> (n <> 0%nat -> src = (c - dist) mod 32768) ->
  exists d', move_bytes n src c d = Ok d' /\ win q d' (c + Z.of_nat n) (copy n dist out).
Proof.
  induction n as [|n IH]; intros src q d c out dist W Hc Hsrc Hd Hd2 Es; cbn [move_bytes copy].
  - exists d. rewrite Z.add_0_r. auto.
  - specialize (Es ltac:(discriminate)). assert (c < 32768) as Hc2 by lia. pose proof (win_pos q d c out W Hc2) as P.
    assert (0 <= c) as C0 by apply W.
    assert (src = (len out - dist) mod 32768) as Es2 by (rewrite Es, <- P, Zminus_mod_idemp_l; reflexivity).
    pose proof (win_get q d c out dist W Hd Hd2) as G. rewrite <- Es2 in G. rewrite G. cbn [obind].
    unfold dict_put, TINFL_LZ_DICT_SIZE. replace ((0 <=? c) && (c <? 32768)) with true by lia. cbn [obind].
    pose proof (win_push q d c out (nth (Z.to_nat (len out - dist)) out 0) W Hc2) as W1.
    destruct (IH (src + 1) q _ (c + 1) _ dist W1 ltac:(lia) ltac:(lia)) as (d' & E & W').
    + rewrite len_app. change (len [nth (Z.to_nat (len out - dist)) out 0]) with 1. lia.
    + lia.
    + intros Hn. replace (c + 1 - dist) with (c - dist + 1) by lia. rewrite <- Zplus_mod_idemp_l, <- Es.
      symmetry. apply Z.mod_small. pose proof (Z.mod_pos_bound (c - dist) 32768 ltac:(lia)). lia.
    + exists d'. rewrite E. split; [reflexivity|]. replace (c + Z.of_nat (S n)) with (c + 1 + Z.of_nat n) by lia. exact W'.
Qed.
Lemma obind_assoc {A B C} (m : outcome A) (f : A -> outcome B) (g : B -> outcome C) :
  obind (obind m f) g = obind m (fun a => obind (f a) g).
Proof. destruct m; reflexivity. Qed.
Lemma move_bytes_add n m src dst d :
  move_bytes (n + m) src dst d =
  obind (move_bytes n src dst d) (fun d1 => move_bytes m (src + Z.of_nat n) (dst + Z.of_nat n) d1).
Proof.
  revert src dst d. induction n as [|n IH]; intros src dst d; cbn [Nat.add move_bytes].
  - cbn [obind]. now rewrite !Z.add_0_r.
  - destruct (dict_get d src); cbn [obind]; try reflexivity.
    destruct (dict_put d dst a); cbn [obind]; try reflexivity. rewrite IH.
    replace (src + 1 + Z.of_nat n) with (src + Z.of_nat (S n)) by lia.
    replace (dst + 1 + Z.of_nat n) with (dst + Z.of_nat (S n)) by lia. reflexivity.
Qed.
Lemma dict_get_other d dst x d1 i : dict_put d dst x = Ok d1 -> i <> dst -> dict_get d1 i = dict_get d i.
Proof.
  unfold dict_put, dict_get. destruct ((0 <=? dst) && (dst <? _)) eqn:E; [|discriminate]. intros [= <-] H.
  destruct ((0 <=? i) && (i <? _)) eqn:Ei; [|reflexivity]. rewrite arr_find_other by lia. reflexivity.
Qed.
Definition apart (src dst : Z) : Prop := dst <= src \/ src + 4 <= dst.
Lemma move_word_bytes src dst d d' : apart src dst ->
  move_bytes 4 src dst d = Ok d' -> move_word src dst d = Ok d'.
Proof.
  intros A. unfold move_word. cbn [move_bytes].
  destruct (dict_get d src) as [x0| | |] eqn:G0; cbn [obind]; try discriminate.
  destruct (dict_put d dst x0) as [d1| | |] eqn:P0; cbn [obind]; try discriminate.
  assert (forall i, src < i <= src + 3 -> dict_get d1 i = dict_get d i) as O1
    by (intros; eapply dict_get_other; [eassumption|unfold apart in A; lia]).
  rewrite O1 by lia.
  destruct (dict_get d (src + 1)) as [x1| | |] eqn:G1; cbn [obind]; try discriminate.
  destruct (dict_put d1 (dst + 1) x1) as [d2| | |] eqn:P1; cbn [obind]; try discriminate.
  assert (forall i, src + 1 < i <= src + 3 -> dict_get d2 i = dict_get d i) as O2
    by (intros; rewrite <- O1 by lia; eapply dict_get_other; [eassumption|unfold apart in A; lia]).
  replace (src + 1 + 1) with (src + 2) by lia. rewrite O2 by lia.
  destruct (dict_get d (src + 2)) as [x2| | |] eqn:G2; cbn [obind]; try discriminate.
  replace (dst + 1 + 1) with (dst + 2) by lia.
  destruct (dict_put d2 (dst + 2) x2) as [d3| | |] eqn:P2; cbn [obind]; try discriminate.
  replace (src + 2 + 1) with (src + 3) by lia. replace (dst + 2 + 1) with (dst + 3) by lia.
  assert (dict_get d3 (src + 3) = dict_get d (src + 3)) as O3
    by (rewrite <- O2 by lia; eapply dict_get_other; [eassumption|unfold apart in A; lia]).
  rewrite O3.
  destruct (dict_get d (src + 3)) as [x3| | |] eqn:G3; cbn [obind]; try discriminate.
  destruct (dict_put d3 (dst + 3) x3) as [d4| | |] eqn:P3; cbn [obind]; try discriminate.
  intros E. exact E.
Qed.
Lemma move_blocks_bytes n src dst d d' : apart src dst ->
  move_bytes (8 * n) src dst d = Ok d' -> move_blocks n src dst d = Ok d'.
Proof.
  revert src dst d. induction n as [|n IH]; intros src dst d A; [intros E; exact E|].
  replace (8 * S n)%nat with (4 + (4 + 8 * n))%nat by lia.
  rewrite move_bytes_add. cbn [move_blocks].
  destruct (move_bytes 4 src dst d) as [d1| | |] eqn:E1; cbn [obind]; try discriminate.
  rewrite (move_word_bytes src dst d d1 A E1). cbn [obind].
  rewrite move_bytes_add. change (Z.of_nat 4) with 4.
  destruct (move_bytes 4 (src + 4) (dst + 4) d1) as [d2| | |] eqn:E2; cbn [obind]; try discriminate.
  rewrite (move_word_bytes _ _ d1 d2); [|unfold apart in *; lia|exact E2]. cbn [obind].
  intros E. apply IH; [unfold apart in *; lia|].
  rewrite <- E. f_equal; lia.
Qed.
Lemma copy_fast_ok counter dist q d c out : win q d c out -> 3 <= counter ->
  1 <= dist <= len out -> dist <= 32768 ->
  Z.max c ((c - dist) mod 32768) + counter <= 32768 ->
  exists d', copy_fast counter dist ((c - dist) mod 32768) c d = Ok (d', c + counter) /\
             win q d' (c + counter) (copy (Z.to_nat counter) dist out).
Proof.
  intros W H3 Hd Hd2 Hroom. pose proof (Z.mod_pos_bound (c - dist) 32768 ltac:(lia)) as B.
  set (src := (c - dist) mod 32768) in *.
  destruct (move_bytes_ok (Z.to_nat counter) src q d c out dist W ltac:(lia) ltac:(lia) Hd Hd2 (fun _ => eq_refl)) as (d' & E & W').
  rewrite Z2Nat.id in W' by lia. exists d'. split; [|exact W'].
  unfold copy_fast. destruct ((counter >=? 9) && (counter <=? dist)) eqn:Ef.
  - assert (9 <= counter <= dist) as Hf by lia.
    rewrite Z.shiftr_div_pow2 by lia. change (2 ^ 3) with 8. change 7 with (Z.ones 3). rewrite Z.land_ones by lia. change (2 ^ 3) with 8.
    pose proof (Z.div_mod counter 8 ltac:(lia)) as DM. pose proof (Z.mod_pos_bound counter 8 ltac:(lia)) as MB.
    set (b := counter / 8) in *. set (r := counter mod 8) in *.
    assert (0 <= b) by (unfold b; apply Z.div_pos; lia).
    replace (Z.to_nat counter) with (8 * Z.to_nat b + Z.to_nat r)%nat in E by lia.
    rewrite move_bytes_add in E.
    destruct (move_bytes (8 * Z.to_nat b) src c d) as [d1| | |] eqn:E1; cbn [obind] in E; try discriminate.
    assert (apart src c) as A.
    { assert (0 <= c) by apply W. unfold apart, src.
      destruct (Z_le_gt_dec dist c).
      - rewrite Z.mod_small by lia. lia.
      - left. replace (c - dist) with (c - dist + 32768 + (-1) * 32768) by lia.
        rewrite Z_mod_plus_full. rewrite Z.mod_small by lia. lia. }
    rewrite (move_blocks_bytes _ _ _ _ _ A E1). cbn [obind].
    replace (src + Z.of_nat (8 * Z.to_nat b)) with (src + 8 * b) in E by lia.
    replace (c + Z.of_nat (8 * Z.to_nat b)) with (c + 8 * b) in E by lia.
    destruct (r <? 3) eqn:Er.
    + rewrite E. cbn [obind]. do 2 f_equal. lia.
    + unfold move_threes. rewrite Er, E. cbn [obind]. do 2 f_equal. lia.
  - unfold move_threes. replace (counter <? 3) with false by lia. rewrite E. reflexivity.
Qed.

