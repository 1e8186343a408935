(** Property C80: output streams that fail. *)
From Coq Require Import String ZArith List Bool Lia.
From Verif Require Import Base Stream BaseFacts Dtype Values Spec ValuesFacts Header HeaderFacts ParserInv ParserRel NpyFacts Tensor Npy SaveFacts PropNpy
  PropTensor Throwing ThrowFacts PropThrowing Files Sinks.
Import ListNotations.
Open Scope Z_scope.

(** ** The writes of save are its bytes *)
Lemma concat_puts b : concat (puts b) = b.
Proof. induction b as [|c b IH]; cbn; [reflexivity|]. f_equal. exact IH. Qed.
Lemma concat_flat_puts A (f : A -> bytes) l : concat (flat_map (fun x => puts (f x)) l) = flat_map f l.
Proof. induction l as [|x l IH]; cbn [flat_map]; [reflexivity|]. now rewrite concat_app, concat_puts, IH. Qed.
Lemma concat_values v d e es : concat (value_writes v d e es) = write_values v d e es.
Proof.
  unfold value_writes, write_values. destruct (is_string d); [apply concat_flat_puts|].
  destruct (raw_type d || is_native v e); [apply app_nil_r|apply concat_flat_puts].
Qed.
Lemma concat_header dt f shape : concat (header_writes dt f shape) = write_npy_header dt f shape.
Proof.
  unfold header_writes, write_npy_header. cbv zeta.
  destruct (_ =? 0); cbn [concat]; now rewrite app_nil_r.
Qed.
Definition writes_of (v : env) (t : tensor) (e : endian) : outcome (list bytes) :=
  let* shape := dims_of t (length (t_shape t)) 0 in
  let* dt := tensor_dtype v t e in
  Ok (header_writes dt (t_fortran t) shape ++ value_writes v (t_dtype t) e (t_values t)).
Lemma writes_save v t e b : save v t e = Ok b -> exists l, writes_of v t e = Ok l /\ concat l = b.
Proof.
  unfold save, writes_of. destruct (dims_of t _ 0) as [shape| | |]; cbn [obind]; try discriminate.
  destruct (tensor_dtype v t e) as [dt| | |]; cbn [obind]; try discriminate.
  intros [= <-]. eexists. split; [reflexivity|]. now rewrite concat_app, concat_header, concat_values.
Qed.

(** ** What a run of writes does *)
(** A stream buffer that tells the truth: it takes what it says, and throws nothing. *)
Definition honest (k : sink) : Prop := forall asked b, exists n, k asked b = Took n /\ 0 <= n <= len b.
Definition silent : out_mask := mk_out_mask false false false.

Lemma ztake_len_le A n (l : list A) : exists n', 0 <= n' <= len l /\ ztake n l = ztake n' l.
Proof.
  exists (Z.max 0 (Z.min n (len l))). pose proof (len_nonneg A l). split; [lia|].
  rewrite !ztake_firstn. destruct (Z.le_gt_cases n 0) as [H0|H0].
  - replace (Z.to_nat n) with 0%nat by lia. replace (Z.to_nat (Z.max _ _)) with 0%nat by lia. reflexivity.
  - destruct (Z.le_gt_cases n (len l)) as [H1|H1].
    + f_equal. lia.
    + rewrite !firstn_all2; [reflexivity|unfold len in *; lia|unfold len in *; lia].
Qed.
Lemma ztake_app_le A n (a b : list A) : 0 <= n <= len a -> ztake n (a ++ b) = ztake n a.
Proof.
  intros H. rewrite !ztake_firstn, firstn_app. replace (Z.to_nat n - length a)%nat with 0%nat by (unfold len in H; lia).
  rewrite firstn_O. apply app_nil_r.
Qed.
Lemma ztake_app_ge A n (a b : list A) : 0 <= n -> ztake (len a + n) (a ++ b) = a ++ ztake n b.
Proof.
  intros H. rewrite !ztake_firstn, firstn_app. unfold len. rewrite firstn_all2 by lia. f_equal. f_equal. lia.
Qed.

Lemma owrites_stuck lib m k l s : o_good s = false ->
  let (r, s') := owrites lib m k l s in
  o_got s' = o_got s /\ o_good s' = false /\ (m = silent -> r = Returned).
Proof.
  revert s. induction l as [|b l IH]; intros s Hs; cbn [owrites]; [auto|].
  unfold owrite. rewrite Hs. destruct (lib s).
  - set (s1 := mk_ostream _ _ _ _ _). assert (o_good s1 = false) as H1.
    { unfold o_good, s1. cbn. destruct (o_bad s); reflexivity. }
    destruct (o_fires m s1) eqn:F.
    + split; [reflexivity|]. split; [exact H1|]. intros ->. discriminate F.
    + exact (IH s1 H1).
  - apply IH, Hs.
Qed.
Lemma owrites_honest lib m k l s : honest k -> fst (owrites lib m k l s) <> Foreign.
Proof.
  intros HK. revert s. induction l as [|b l IH]; intros s; cbn [owrites]; [discriminate|].
  unfold owrite. destruct (o_good s).
  - destruct (HK (o_asked s) b) as (n & -> & _). destruct (o_fires m _); [discriminate|apply IH].
  - destruct (lib s); [|apply IH]. destruct (o_fires m _); [discriminate|apply IH].
Qed.

Lemma owrites_run lib m k l s : o_good s = true ->
  let (r, s') := owrites lib m k l s in
  exists n, 0 <= n <= len (concat l) /\ o_got s' = o_got s ++ ztake n (concat l) /\
    (o_good s' = true -> n = len (concat l) /\ r = Returned) /\
    (r = Returned -> x_bad m = true -> o_good s' = true) /\
    (m = silent -> r = Returned) /\
    (honest k -> n = len (concat l) -> o_good s' = true).
Proof.
  revert s. induction l as [|b l IH]; intros s Hs; cbn [owrites concat].
  - exists 0. cbn. rewrite app_nil_r. repeat split; auto; lia.
  - unfold owrite. rewrite Hs. pose proof (len_nonneg _ (concat l)) as HC. pose proof (len_nonneg _ b) as HB.
    assert (forall n s1 r0, o_got s1 = o_got s ++ ztake n b -> o_good s1 = false ->
      (honest k -> len (ztake n b) < len b) -> (r0 = Returned -> x_bad m = false) -> (m = silent -> r0 = Returned) ->
      let (r, s') := match r0 with Returned => owrites lib m k l s1 | _ => (r0, s1) end in
      (r0 = Returned -> r = Returned -> x_bad m = false) /\
      exists n, 0 <= n <= len (b ++ concat l) /\ o_got s' = o_got s ++ ztake n (b ++ concat l) /\
      (o_good s' = true -> n = len (b ++ concat l) /\ r = Returned) /\
      (r = Returned -> x_bad m = true -> o_good s' = true) /\
      (m = silent -> r = Returned) /\
      (honest k -> n = len (b ++ concat l) -> o_good s' = true)) as HBadCase.
    { intros n s1 r0 G1 G2 G3 G4 G5. destruct (ztake_len_le _ n b) as (n' & Hn' & ET).
      assert (honest k -> n' < len b) as HH.
      { intros HK. specialize (G3 HK). rewrite ET, len_ztake in G3 by lia. lia. }
      assert (o_got s1 = o_got s ++ ztake n' (b ++ concat l)) as G1' by (rewrite G1, ET, (ztake_app_le _ n') by lia; reflexivity).
      destruct r0.
      - pose proof (owrites_stuck lib m k l s1 G2) as HS. destruct (owrites lib m k l s1) as [r s'].
        destruct HS as (HS1 & HS2 & HS3). split; [auto|]. exists n'. rewrite HS1, HS2, len_app. split; [lia|]. split; [exact G1'|].
        split; [discriminate|]. split; [intros _ HX; rewrite G4 in HX by reflexivity; discriminate|].
        split; [exact HS3|]. intros HK HX. specialize (HH HK). lia.
      - split; [discriminate|]. exists n'. rewrite G2, len_app. split; [lia|]. split; [exact G1'|]. split; [discriminate|].
        split; [discriminate|]. split; [intros HX; discriminate (G5 HX)|]. intros HK HX. specialize (HH HK). lia.
      - split; [discriminate|]. exists n'. rewrite G2, len_app. split; [lia|]. split; [exact G1'|]. split; [discriminate|].
        split; [discriminate|]. split; [intros HX; discriminate (G5 HX)|]. intros HK HX. specialize (HH HK). lia. }
    destruct (k (o_asked s) b) as [n|n] eqn:EK.
    + destruct (n =? len b) eqn:EN.
      * apply Z.eqb_eq in EN. set (s1 := mk_ostream _ _ _ _ _). assert (o_good s1 = true) as H1 by reflexivity.
        assert (o_fires m s1 = false) as -> by (unfold o_fires, s1; cbn; now rewrite !andb_false_r).
        specialize (IH s1 H1). destruct (owrites lib m k l s1) as [r s'].
        destruct IH as (n2 & I1 & I2 & I3 & I4 & I5 & I6). exists (len b + n2). rewrite len_app.
        split; [lia|]. split.
        { rewrite I2. unfold s1. cbn [o_got]. rewrite EN, ztake_app_ge by lia.
          rewrite (ztake_all Z (len b) b) by lia. now rewrite app_assoc. }
        split; [intros H; destruct (I3 H); split; [lia|assumption]|]. split; [exact I4|]. split; [exact I5|].
        intros H H'. apply I6; [exact H|lia].
      * apply Z.eqb_neq in EN. set (s1 := mk_ostream _ _ _ _ _).
        specialize (HBadCase n s1 (if o_fires m s1 then Failed else Returned)).
        assert (o_fires m s1 = x_bad m) as HF by (unfold o_fires, s1; cbn; now rewrite !andb_false_r, andb_true_r, !orb_false_r).
        rewrite HF in *. destruct (x_bad m) eqn:EX.
        -- apply HBadCase; auto; [|discriminate|intros ->; discriminate EX].
           intros HK. destruct (HK (o_asked s) b) as (n0 & E0 & Hn0). rewrite EK in E0. injection E0 as <-. rewrite len_ztake by lia. lia.
        -- assert (honest k -> len (ztake n b) < len b) as HH.
           { intros HK. destruct (HK (o_asked s) b) as (n0 & E0 & Hn0). rewrite EK in E0. injection E0 as <-. rewrite len_ztake by lia. lia. }
           specialize (HBadCase eq_refl eq_refl HH ltac:(auto) ltac:(auto)). destruct (owrites lib m k l s1) as [r s']. apply HBadCase.
    + set (s1 := mk_ostream _ _ _ _ _). specialize (HBadCase n s1 (if x_bad m then Foreign else Returned)).
      assert (honest k -> len (ztake n b) < len b) as HH.
      { intros HK. destruct (HK (o_asked s) b) as (n0 & E0 & Hn0). rewrite EK in E0. discriminate. }
      destruct (x_bad m) eqn:EX.
      * apply HBadCase; auto; [discriminate|intros ->; discriminate EX].
      * specialize (HBadCase eq_refl eq_refl HH ltac:(auto) ltac:(auto)). destruct (owrites lib m k l s1) as [r s']. apply HBadCase.
Qed.

Lemma save_to_run lib m k v t e s b : save v t e = Ok b ->
  exists l, concat l = b /\ writes_of v t e = Ok l /\
    save_to lib m k v t e s = (Ok (fst (owrites lib m k l s)), snd (owrites lib m k l s)).
Proof.
  intros H. destruct (writes_save v t e b H) as (l & HL & HC). exists l. split; [exact HC|]. split; [exact HL|].
  unfold save_to. unfold writes_of in HL. rewrite HL. now destruct (owrites lib m k l s).
Qed.

(** ** The property *)
(** Whatever the stream buffer does, and whatever exceptions are switched on: what arrives is a beginning of the
    file; the stream is still good only if it was before and all has arrived, and then save has returned. *)
Theorem C80_beginning_arrives : forall lib m k v t e file s,
  save v t e = Ok file ->
  exists r s' n, save_to lib m k v t e s = (Ok r, s') /\ 0 <= n <= len file /\
    o_got s' = o_got s ++ ztake n file /\
    (o_good s' = true -> o_good s = true /\ n = len file /\ r = Returned).
Proof.
  intros lib m k v t e file s HS. destruct (save_to_run lib m k v t e s file HS) as (l & <- & _ & ->).
  destruct (o_good s) eqn:G.
  - pose proof (owrites_run lib m k l s G) as H. destruct (owrites lib m k l s) as [r s']. destruct H as (n & H1 & H2 & H3 & _).
    exists r, s', n. split; [reflexivity|]. split; [exact H1|]. split; [exact H2|]. intros H. destruct (H3 H). auto.
  - pose proof (owrites_stuck lib m k l s G) as H. destruct (owrites lib m k l s) as [r s']. destruct H as (H1 & H2 & _).
    exists r, s', 0. split; [reflexivity|]. pose proof (len_nonneg _ (concat l)). split; [lia|]. split; [rewrite H1, ztake_firstn; symmetry; apply app_nil_r|].
    rewrite H2. discriminate.
Qed.
Print Assumptions C80_beginning_arrives.

(** No exceptions switched on (as by default): save returns, whatever was lost; and on a stream that is not good
    (at its end, say) nothing at all is written. *)
Theorem C80_silent : forall lib k v t e file s,
  save v t e = Ok file ->
  fst (save_to lib silent k v t e s) = Ok Returned /\
  (o_bad s || o_fail s || o_eof s = true -> o_got (snd (save_to lib silent k v t e s)) = o_got s).
Proof.
  intros lib k v t e file s HS. destruct (save_to_run lib silent k v t e s file HS) as (l & <- & _ & ->). cbn [fst snd].
  destruct (o_good s) eqn:G.
  - pose proof (owrites_run lib silent k l s G) as H. destruct (owrites lib silent k l s) as [r s']. destruct H as (n & _ & _ & _ & _ & H & _).
    cbn [fst]. rewrite H by reflexivity. split; [reflexivity|]. intros HB. unfold o_good in G. rewrite HB in G. discriminate.
  - pose proof (owrites_stuck lib silent k l s G) as H. destruct (owrites lib silent k l s) as [r s']. destruct H as (H1 & _ & H).
    cbn [fst snd]. rewrite H by reflexivity. auto.
Qed.
Print Assumptions C80_silent.

(** A stream that is not good when it is handed over: the buffer is not asked for anything, whatever exceptions are
    switched on. If the library's sentry sets failbit then, save throws at once with failbit on, and with badbit or eofbit
    alone if that is what is wrong with the stream. *)
Theorem C80_bad_from_the_start : forall lib m k v t e file s,
  save v t e = Ok file -> o_bad s = true \/ o_fail s = true \/ o_eof s = true ->
  (exists r s', save_to lib m k v t e s = (Ok r, s') /\ o_got s' = o_got s /\ o_asked s' = o_asked s /\ r <> Foreign /\
     o_bad s' = o_bad s /\ o_eof s' = o_eof s) /\
  (lib s = true -> x_fail m = true \/ (x_bad m = true /\ o_bad s = true) \/ (x_eof m = true /\ o_eof s = true) ->
   save_to lib m k v t e s = (Ok Failed, mk_ostream (o_got s) (o_asked s) (o_bad s) true (o_eof s))).
Proof.
  intros lib m k v t e file s HS HB. destruct (save_to_run lib m k v t e s file HS) as (l & _ & HW & ->).
  assert (forall s0, o_bad s0 = true \/ o_fail s0 = true \/ o_eof s0 = true -> o_good s0 = false) as HG.
  { intros s0 H. unfold o_good. destruct H as [->|[->| ->]]; [reflexivity|now rewrite orb_true_r|now rewrite !orb_true_r]. }
  assert (exists b l', l = b :: l') as (b & l' & ->).
  { unfold writes_of in HW. destruct (dims_of t _ 0); cbn [obind] in HW; try discriminate.
    destruct (tensor_dtype v t e); cbn [obind] in HW; try discriminate. injection HW as <-.
    unfold header_writes. cbv zeta. destruct (_ =? 0); cbn [app]; eauto. }
  split.
  - generalize (b :: l'). clear HS HW b l'. intros l. revert s HB. induction l as [|b l IH]; intros s HB; cbn [owrites].
    + exists Returned, s. repeat split; discriminate.
    + unfold owrite. rewrite (HG s HB). destruct (lib s); [|exact (IH s HB)].
      destruct (o_fires m _).
      * eexists _, _. split; [reflexivity|]. cbn. repeat split; discriminate.
      * destruct (IH (mk_ostream (o_got s) (o_asked s) (o_bad s) true (o_eof s))) as (r & s' & E & H); [right; left; reflexivity|].
        exists r, s'. split; [exact E|exact H].
  - intros HL HM. cbn [owrites]. unfold owrite. rewrite (HG s HB), HL.
    assert (o_fires m (mk_ostream (o_got s) (o_asked s) (o_bad s) true (o_eof s)) = true) as ->; [|reflexivity].
    unfold o_fires. cbn [o_bad o_fail o_eof]. destruct HM as [->|[[-> ->]|[-> ->]]]; [cbn; now rewrite orb_true_r|reflexivity|apply orb_true_r].
Qed.
Print Assumptions C80_bad_from_the_start.

(** An array that save refuses is refused on every stream, in the same way, and the stream is not touched. *)
Theorem C80_refused_arrays : forall lib m k v t e s,
  match save v t e with
  | Ok _ => exists r s', save_to lib m k v t e s = (Ok r, s')
  | Throw x => save_to lib m k v t e s = (Throw x, s)
  | AssertFail => save_to lib m k v t e s = (AssertFail, s)
  | Undef u => save_to lib m k v t e s = (Undef u, s)
  end.
Proof.
  intros lib m k v t e s. unfold save, save_to. destruct (dims_of t _ 0); cbn [obind]; try reflexivity.
  destruct (tensor_dtype v t e); cbn [obind]; try reflexivity. destruct (owrites lib m k _ s). eauto.
Qed.
Print Assumptions C80_refused_arrays.

(** badbit switched on: save returns exactly when all was written. *)
Theorem C80_badbit : forall lib m k v t e file s,
  save v t e = Ok file -> x_bad m = true -> o_good s = true ->
  exists r s', save_to lib m k v t e s = (Ok r, s') /\
    (r = Returned <-> o_good s' = true) /\
    (r = Returned -> o_got s' = o_got s ++ file) /\
    (honest k -> r = Failed <-> exists n, 0 <= n < len file /\ o_got s' = o_got s ++ ztake n file).
Proof.
  intros lib m k v t e file s HS HM G. destruct (save_to_run lib m k v t e s file HS) as (l & <- & _ & ->).
  pose proof (owrites_run lib m k l s G) as H. pose proof (owrites_honest lib m k l s) as HH.
  destruct (owrites lib m k l s) as [r s']. destruct H as (n & H1 & H2 & H3 & H4 & _ & H6). cbn [fst snd] in *.
  exists r, s'. split; [reflexivity|].
  assert (r = Returned <-> o_good s' = true) as HI by (split; [intros HR; exact (H4 HR HM)|intros HR; exact (proj2 (H3 HR))]).
  split; [exact HI|]. split.
  - intros HR. apply HI in HR. destruct (H3 HR) as [-> _]. rewrite ztake_all in H2 by lia. exact H2.
  - intros HK. split.
    + intros ->. exists n. split; [|exact H2]. destruct (Z.eq_dec n (len (concat l))) as [E|]; [|lia].
      specialize (H6 HK E). apply HI in H6. discriminate.
    + intros (n' & Hn' & E). destruct r; [|reflexivity|destruct (HH HK eq_refl)].
      destruct (H3 (proj1 HI eq_refl)) as [-> _]. rewrite H2 in E. apply app_inv_head in E. apply (f_equal len) in E.
      rewrite !len_ztake in E by lia. lia.
Qed.
Print Assumptions C80_badbit.

(** failbit alone is not enough: the stream buffer may refuse the values of an array (any part of them) without
    an exception, as only badbit tells of it and no write follows. *)
Theorem C80_failbit_alone : forall lib m k v t e file s,
  save v t e = Ok file -> x_bad m = false -> o_good s = true ->
  is_string (t_dtype t) = false -> raw_type (t_dtype t) || is_native v e = true ->
  (forall asked b, len asked < len (o_asked s) + 3 -> k asked b = Took (len b)) ->
  fst (save_to lib m k v t e s) = Ok Returned.
Proof.
  intros lib m k v t e file s HS HM G HT HN HK. destruct (save_to_run lib m k v t e s file HS) as (l & _ & HL & ->). cbn [fst]. f_equal.
  unfold writes_of in HL. destruct (dims_of t _ 0) as [shape| | |]; cbn [obind] in HL; try discriminate.
  destruct (tensor_dtype v t e) as [dt| | |]; cbn [obind] in HL; try discriminate. injection HL as <-.
  unfold value_writes. rewrite HT, HN. set (body := flat_map _ _). clearbody body.
  assert (exists a b c, header_writes dt (t_fortran t) shape = [a; b; c]) as (a & b & c & ->).
  { unfold header_writes. cbv zeta. destruct (_ =? 0); eauto. }
  cbn [app owrites].
  assert (forall x s0, o_good s0 = true -> len (o_asked s0) < len (o_asked s) + 3 ->
    owrite lib m k x s0 = (Returned, mk_ostream (o_got s0 ++ x) (o_asked s0 ++ [x]) false false false)) as HW.
  { intros x s0 G0 H0. unfold owrite. rewrite G0, HK by exact H0. rewrite Z.eqb_refl, ztake_all by lia. cbn [negb].
    unfold o_fires. cbn. now rewrite !andb_false_r. }
  rewrite HW by (auto; lia). rewrite HW by (auto; cbn [o_asked]; rewrite len_app; cbn; lia).
  rewrite HW by (auto; cbn [o_asked]; rewrite !len_app; cbn; lia).
  unfold owrite. cbn [o_good o_bad o_fail o_eof orb negb o_asked o_got].
  destruct (k _ body) as [n|n]; unfold o_fires; cbn; rewrite HM; cbn; rewrite ?andb_false_r; reflexivity.
Qed.
Print Assumptions C80_failbit_alone.

(** ** A device of limited room *)
(** It takes what fits, [room] bytes in all. *)
Definition device_of (room : Z) : sink := fun asked b => Took (Z.max 0 (Z.min (len b) (room - len (concat asked)))).
Lemma device_honest n : 0 <= n -> honest (device_of n).
Proof. intros H asked b. eexists. split; [reflexivity|]. pose proof (len_nonneg _ b). lia. Qed.
Lemma device_run lib m n l s : o_good s = true -> o_got s = concat (o_asked s) -> len (o_got s) <= n ->
  o_got (snd (owrites lib m (device_of n) l s)) = ztake n (o_got s ++ concat l) /\
  (o_good (snd (owrites lib m (device_of n) l s)) = true <-> len (o_got s ++ concat l) <= n).
Proof.
  revert s. induction l as [|b l IH]; intros s G HE HR; cbn [owrites concat].
  - rewrite app_nil_r, ztake_all by exact HR. cbn [snd]. tauto.
  - unfold owrite. rewrite G. change (device_of n (o_asked s) b) with (Took (Z.max 0 (Z.min (len b) (n - len (concat (o_asked s)))))).
    pose proof (len_nonneg _ b) as HB. pose proof (len_nonneg _ (concat l)) as HC.
    rewrite <- HE. pose proof (len_nonneg _ (o_got s)) as HG.
    destruct (Z.le_gt_cases (len (o_got s) + len b) n) as [HF|HF].
    + replace (Z.max 0 (Z.min (len b) (n - len (o_got s)))) with (len b) by lia. rewrite Z.eqb_refl, (ztake_all _ _ b) by lia.
      set (s1 := mk_ostream _ _ _ _ _). assert (o_fires m s1 = false) as -> by (unfold o_fires, s1; cbn; now rewrite !andb_false_r).
      destruct (IH s1) as [I1 I2]; [reflexivity| |unfold s1; cbn [o_got]; rewrite len_app; lia|].
      { unfold s1. cbn [o_got o_asked]. rewrite concat_app, HE. cbn [concat]. now rewrite app_nil_r. }
      rewrite I1, I2. unfold s1. cbn [o_got]. rewrite <- app_assoc. tauto.
    + replace (Z.max 0 (Z.min (len b) (n - len (o_got s)))) with (n - len (o_got s)) by lia.
      replace (n - len (o_got s) =? len b) with false by (symmetry; apply Z.eqb_neq; lia).
      set (s1 := mk_ostream _ _ _ _ _). assert (o_good s1 = false) as G1 by reflexivity.
      assert (o_got s1 = ztake n (o_got s ++ b ++ concat l)) as E1.
      { unfold s1. cbn [o_got]. replace n with (len (o_got s) + (n - len (o_got s))) at 2 by lia.
        rewrite ztake_app_ge, ztake_app_le by lia. reflexivity. }
      assert (o_good s1 = true <-> len (o_got s ++ b ++ concat l) <= n) as E2 by (rewrite G1, !len_app; split; [discriminate|lia]).
      destruct (o_fires m s1); [split; [exact E1|exact E2]|].
      pose proof (owrites_stuck lib m (device_of n) l s1 G1) as HS. destruct (owrites lib m (device_of n) l s1) as [r s'].
      destruct HS as (HS1 & HS2 & _). cbn [snd]. rewrite HS1, HS2, <- G1. auto.
Qed.
Theorem C80_limited_room : forall lib m room v t e file,
  save v t e = Ok file -> 0 <= room ->
  let empty := mk_ostream [] [] false false false in
  o_got (snd (save_to lib m (device_of room) v t e empty)) = ztake room file /\
  (x_bad m = true -> fst (save_to lib m (device_of room) v t e empty) = Ok (if len file <=? room then Returned else Failed)).
Proof.
  intros lib m room v t e file HS HR empty. destruct (save_to_run lib m (device_of room) v t e empty file HS) as (l & HC & _ & E).
  destruct (device_run lib m room l empty eq_refl eq_refl HR) as [D1 D2]. rewrite E. cbn [fst snd]. rewrite D1, HC. cbn [o_got empty app].
  split; [reflexivity|]. intros HM. f_equal.
  destruct (C80_badbit lib m (device_of room) v t e file empty HS HM eq_refl) as (r & s' & ES & H1 & _ & H3).
  rewrite E in ES. injection ES as ER ES. rewrite ER. rewrite ES in *. rewrite HC in D2. cbn [o_got empty app] in D2.
  destruct (len file <=? room) eqn:EL.
  - apply H1, D2. now apply Z.leb_le.
  - apply Z.leb_gt in EL. apply H3; [now apply device_honest|]. exists room. split; [lia|]. rewrite D1, HC. reflexivity.
Qed.
Print Assumptions C80_limited_room.
(** So a file saved by path onto such a device (C57: nothing reports that it is cut) is what the stream gets. *)
Theorem C80_as_in_files : forall lib m room v t e file p k,
  save v t e = Ok file -> 0 <= room -> can_write k p = true ->
  file_at (snd (save_path v t e p room k)) p
    = Some (o_got (snd (save_to lib m (device_of room) v t e (mk_ostream [] [] false false false)))).
Proof.
  intros lib m room v t e file p k HS HR HW. rewrite (proj1 (C80_limited_room lib m room v t e file HS HR)).
  unfold save_path. rewrite HW, HS. cbn. now rewrite beq_refl.
Qed.
Print Assumptions C80_as_in_files.

(** ** Several arrays in one stream *)
(** A program that saves arrays until a call does not return: how many calls did. *)
Fixpoint save_each (lib : ostream -> bool) (m : out_mask) (k : sink) (l : list (env * tensor * endian)) (s : ostream) : nat * ostream :=
  match l with
  | [] => (O, s)
  | (v, t, e) :: l' =>
      match save_to lib m k v t e s with
      | (Ok Returned, s') => let (n, s2) := save_each lib m k l' s' in (S n, s2)
      | (_, s') => (O, s')
      end
  end.
Definition file_of (x : env * tensor * endian) (file : bytes) : Prop :=
  let '(v, t, e) := x in save v t e = Ok file.

(** With badbit on: the arrays whose save returned are there whole, and then at most a proper beginning of
    the next one. *)
Theorem C80_several : forall lib m k items files s,
  honest k -> x_bad m = true -> o_good s = true -> Forall2 file_of items files ->
  exists n s' part, save_each lib m k items s = (n, s') /\
    o_got s' = o_got s ++ concat (firstn n files) ++ part /\
    ((n = length items /\ part = [] /\ o_good s' = true) \/
     (n < length items)%nat /\ o_good s' = false /\ exists missing, missing <> [] /\ nth_error files n = Some (part ++ missing)).
Proof.
  intros lib m k items files s HK HM. intros G HF. revert s G. induction HF as [|[[v t] e] file items files H1 HF IH]; intros s G; cbn [save_each].
  - exists O, s, []. cbn. rewrite app_nil_r. split; [reflexivity|]. split; [reflexivity|]. left; auto.
  - destruct (C80_badbit lib m k v t e file s H1 HM G) as (r & s1 & E & R1 & R2 & R3). rewrite E.
    destruct r.
    + destruct (IH s1 (proj1 R1 eq_refl)) as (n & s2 & part & E2 & G2 & HC). rewrite E2. exists (S n), s2, part.
      split; [reflexivity|]. split; [rewrite G2, (R2 eq_refl); cbn [firstn concat]; now rewrite <- !app_assoc|].
      destruct HC as [(-> & H2 & H3)|(H2 & H3 & H4)]; [left; auto|]. right. split; [cbn [length]; lia|]. auto.
    + destruct (proj1 (R3 HK) eq_refl) as (n & Hn & EG). exists O, s1, (ztake n file).
      split; [reflexivity|]. split; [exact EG|]. right. split; [cbn; lia|]. split.
      { destruct (o_good s1); [|reflexivity]. destruct R1 as [_ R1]. discriminate (R1 eq_refl). }
      exists (zdrop n file). split.
      * intros HZ. apply (f_equal len) in HZ. rewrite len_zdrop in HZ. cbn in HZ. lia.
      * cbn. f_equal. rewrite ztake_firstn, zdrop_skipn. symmetry. apply firstn_skipn.
    + exfalso. destruct (save_to_run lib m k v t e s file H1) as (l & _ & _ & E').
      rewrite E in E'. injection E' as E' _. exact (owrites_honest lib m k l s HK (eq_sym E')).
Qed.
Print Assumptions C80_several.

(** With any exceptions or none, and any stream buffer: what has arrived after all the saves is a beginning of the
    files one after the other, and if the stream is still good it is all of them. *)
Theorem C80_tested_at_the_end : forall lib m k items files s, Forall2 file_of items files ->
  exists n s' arrived, save_each lib m k items s = (n, s') /\ 0 <= arrived <= len (concat files) /\
    o_got s' = o_got s ++ ztake arrived (concat files) /\
    (o_good s' = true -> n = length items /\ o_good s = true /\ o_got s' = o_got s ++ concat files).
Proof.
  intros lib m k items files s HF. revert s. induction HF as [|[[v t] e] file items files H1 HF IH]; intros s; cbn [save_each].
  - exists O, s, 0. cbn. rewrite app_nil_r. repeat split; auto; lia.
  - destruct (C80_beginning_arrives lib m k v t e file s H1) as (r & s1 & n1 & E & Hn1 & G1 & K1). rewrite E. cbn [concat].
    rewrite len_app. pose proof (len_nonneg _ (concat files)) as HC.
    destruct r.
    + destruct (IH s1) as (n & s2 & a & E2 & Ha & G2 & K2). rewrite E2. destruct (o_good s1) eqn:GS1.
      * destruct (K1 eq_refl) as (GS & -> & _). exists (S n), s2, (len file + a). split; [reflexivity|]. split; [lia|].
        split; [rewrite G2, G1, ztake_app_ge, (ztake_all _ (len file)) by lia; now rewrite app_assoc|].
        intros HG. destruct (K2 HG) as (-> & _ & G3). split; [reflexivity|]. split; [exact GS|].
        rewrite G3, G1, (ztake_all _ (len file)) by lia. now rewrite app_assoc.
      * exists (S n), s2, n1. split; [reflexivity|]. split; [lia|].
        assert (o_got s2 = o_got s1 /\ o_good s2 = false) as [G3 G4].
        { clear - HF GS1 E2. revert s1 GS1 n s2 E2. induction HF as [|[[v t] e] file items files H1 HF IH]; intros s1 GS1 n s2 E2; cbn [save_each] in E2.
          - injection E2 as _ <-. auto.
          - destruct (save_to_run lib m k v t e s1 file H1) as (l & _ & _ & E). rewrite E in E2.
            pose proof (owrites_stuck lib m k l s1 GS1) as HS. destruct (owrites lib m k l s1) as [r s']. destruct HS as (HS1 & HS2 & _).
            cbn [fst snd] in E2. destruct r; [|injection E2 as _ <-; auto..].
            destruct (save_each lib m k items s') as [n' s3] eqn:E3. injection E2 as _ <-.
            destruct (IH s' HS2 n' s3 E3) as [-> I2]. auto. }
        rewrite G3, G4, (ztake_app_le _ n1) by lia. split; [exact G1|discriminate].
    + exists O, s1, n1. split; [reflexivity|]. split; [lia|]. rewrite (ztake_app_le _ n1) by lia. split; [exact G1|].
      intros HG. destruct (K1 HG) as (_ & _ & X). discriminate X.
    + exists O, s1, n1. split; [reflexivity|]. split; [lia|]. rewrite (ztake_app_le _ n1) by lia. split; [exact G1|].
      intros HG. destruct (K1 HG) as (_ & _ & X). discriminate X.
Qed.
Print Assumptions C80_tested_at_the_end.

(** And they come back: a reader that loads until an exception gets the arrays whose save returned, and none else. *)
Theorem C80_come_back : forall lib m k mi v2 items files s g,
  honest k -> x_bad m = true -> s = mk_ostream [] [] false false false -> Forall2 file_of items files ->
  armed mi -> prior_parses g ->
  Forall2 (fun x file => saved_as v2 (snd (fst x)) file) items files ->
  exists n s', save_each lib m k items s = (n, s') /\
    ((n < length items)%nat ->
     load_each mi v2 (map (fun x => t_dtype (snd (fst x))) items) (open_str (o_got s')) g
      = (map (fun x => Ok (snd (fst x))) (firstn n items), true)).
Proof.
  intros lib m k mi v2 items files s g HK HM -> HF Hmi Hg HSaved.
  destruct (C80_several lib m k items files (mk_ostream [] [] false false false) HK HM eq_refl HF) as (n & s' & part & E & EG & HC).
  exists n, s'. split; [exact E|]. intros Hn. destruct HC as [(-> & _)|(_ & _ & missing & Hmis & HN)]; [lia|].
  cbn [o_got app] in EG. clear E HF.
  assert (exists x, nth_error items n = Some x) as [[[v1 t] e] Hx].
  { destruct (nth_error items n) eqn:EN; [eauto|]. apply nth_error_None in EN. lia. }
  assert (saved_as v2 t (part ++ missing)) as Ht.
  { clear - HSaved Hx HN. revert n Hx HN. induction HSaved as [|x f items files H HS IH]; intros [|n] Hx HN; cbn in *; try discriminate.
    - injection Hx as ->. injection HN as ->. exact H.
    - eauto. }
  set (saved := combine (map (fun x => snd (fst x)) (firstn n items)) (firstn n files)).
  assert (Forall (fun x => saved_as v2 (fst x) (snd x)) saved /\ flat_map snd saved = concat (firstn n files) /\
    map fst saved = map (fun x => snd (fst x)) (firstn n items)) as (S1 & S2 & S3).
  { unfold saved. clear - HSaved. revert n. induction HSaved as [|x f items files H HS IH]; intros [|n]; cbn; auto.
    destruct (IH n) as (I1 & I2 & I3). split; [constructor; auto|]. split; [now rewrite I2|now rewrite I3]. }
  assert (items = firstn n items ++ (v1, t, e) :: skipn (S n) items) as EI.
  { clear - Hx. revert n Hx. induction items as [|x items IH]; intros [|n] Hx; cbn in *; try discriminate; [now injection Hx as ->|].
    f_equal. now apply IH. }
  pose proof (C78_until_failure mi v2 saved t (part ++ missing) part missing (map (fun x => t_dtype (snd (fst x))) (skipn (S n) items))
    (open_str (o_got s')) g Hmi S1 Ht Hmis eq_refl eq_refl) as HU.
  rewrite S2 in HU. specialize (HU EG Hg).
  replace (map (fun x : env * tensor * endian => t_dtype (snd (fst x))) items) with
    (map (fun x : tensor * bytes => t_dtype (fst x)) saved ++ t_dtype t :: map (fun x => t_dtype (snd (fst x))) (skipn (S n) items)).
  - rewrite HU. replace (map (fun x : tensor * bytes => Ok (fst x)) saved) with (map (@Ok tensor) (map fst saved)) by apply map_map.
    rewrite S3, map_map. reflexivity.
  - rewrite EI at 2. rewrite map_app. cbn [map fst snd]. f_equal. rewrite <- (map_map fst t_dtype saved), S3, map_map. reflexivity.
Qed.
Print Assumptions C80_come_back.

(** A case: a device of 200 bytes and two arrays of 132 bytes each. Without exceptions both calls return;
    with failbit alone too; with badbit the second does not, and the first comes back. *)
Definition fresh_out : ostream := mk_ostream [] [] false false false.
Example C80_case :
  let lib := fun _ => true in
  let items := [(case_env, case_tensor, NATIVE); (case_env, case_tensor, BIG)] in
  let g0 := (zrepeat 0 65536, DTYPE_MAP) in
  fst (save_each lib silent (device_of 200) items fresh_out) = 2%nat /\
  fst (save_each lib (mk_out_mask false true false) (device_of 130) [(case_env, case_tensor, NATIVE)] fresh_out) = 1%nat /\
  fst (save_each lib (mk_out_mask true false false) (device_of 200) items fresh_out) = 1%nat /\
  len (o_got (snd (save_each lib (mk_out_mask true false false) (device_of 200) items fresh_out))) = 200 /\
  load_each (mk_mask false true) case_env [UINT16; UINT16]
    (open_str (o_got (snd (save_each lib (mk_out_mask true false false) (device_of 200) items fresh_out)))) g0 = ([Ok case_tensor], true) /\
  fst (save_to lib (mk_out_mask true false false) (fun _ _ => Threw 3) case_env case_tensor NATIVE fresh_out) = Ok Foreign /\
  o_got (snd (save_to lib silent (device_of 500) case_env case_tensor NATIVE (mk_ostream [1] [] false false true))) = [1].
Proof. vm_compute. repeat split. Qed.
