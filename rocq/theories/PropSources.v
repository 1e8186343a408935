(** Property C81: input streams over any stream buffer. *)
From Coq Require Import String ZArith List Bool Lia.
From Verif Require Import Base Stream BaseFacts Dtype Values Spec Header ParserInv Tensor Npy SaveFacts PropNpy
  TensorFacts PropTensor Throwing ThrowFacts PropThrowing Sources SourceFacts.
Import ListNotations.
Open Scope Z_scope.

(** [call] of a stream over some buffer does what [plain], the same call of an ordinary stream, does with the bytes
    that were delivered; and if the stream is still good afterwards, it has used those and nothing that follows them. *)
Definition as_delivered {A} (call : instream -> globals -> reply A * instream * globals)
    (plain : istream -> globals -> outcome A * istream * globals) (st : instream) (g : globals) : Prop :=
  match call st g with
  | (Escaped _, st', _) => i_good st' = false /\ exists delivered, i_got st' = i_got st ++ delivered
  | (Reply o, st', g') => exists delivered, i_got st' = i_got st ++ delivered /\
      (exists s', plain (open_str delivered) g = (o, s', g')) /\
      (i_good st' = true -> i_good st = true /\ forall later, exists s',
         plain (open_str (delivered ++ later)) g = (o, s', g') /\ (rest s' = later \/ o = Undef UninitRead))
  end.

Lemma peek_mimics src m v st g :
  match peek_y src m v st g with
  | (Escaped _, st', _) => i_good st' = false /\ exists d, i_got st' = i_got st ++ d
  | (Reply o, st', g') => exists d, i_got st' = i_got st ++ d /\
      (i_good st = false -> d = [] /\ i_good st' = false /\ forall s, dry s -> exists s', peek_x no_mask v s g = (Answer o, s', g') /\ dry s') /\
      (i_good st = true -> i_good st' = true -> forall s q, good s = true -> rest s = d ++ q -> peek_x no_mask v s g = (Answer o, set_rest s q, g')) /\
      (i_good st = true -> i_good st' = false -> forall s, good s = true -> rest s = d -> exists s', peek_x no_mask v s g = (Answer o, s', g') /\ dry s')
  end.
Proof.
  unfold peek_y, peek_x. pose proof (ydict_mimics src m v st) as H. destruct (ydict src m v st) as [[r|x] st1]; [|exact H].
  destruct H as (d & H1 & H2 & H3 & H4).
  assert (exists o g', match r with Ok b => parse_dictionary v b g | Throw e => (Throw e, g) | AssertFail => (AssertFail, g) | Undef u => (Undef u, g) end = (o, g')) as (o & g' & E).
  { destruct (match r with Ok _ => _ | _ => _ end). eauto. }
  assert (match (Read r, st1) with
    | (Read (Ok b), s1) => let (o0, g'0) := parse_dictionary v b g in (Reply o0, s1, g'0)
    | (Read (Throw e), s1) => (Reply (Throw e), s1, g) | (Read AssertFail, s1) => (Reply AssertFail, s1, g)
    | (Read (Undef u), s1) => (Reply (Undef u), s1, g) | (Left x, s1) => (Escaped x, s1, g) end = (Reply o, st1, g')) as EY.
  { destruct r as [b|x| |u]; [destruct (parse_dictionary v b g)|..]; injection E as <- <-; reflexivity. }
  assert (forall s1 : istream, match (Some r, s1) with
    | (Some (Ok b), s1) => let (o0, g'0) := parse_dictionary v b g in (Answer o0, s1, g'0)
    | (Some (Throw e), s1) => (Answer (Throw e), s1, g) | (Some AssertFail, s1) => (Answer AssertFail, s1, g)
    | (Some (Undef u), s1) => (Answer (Undef u), s1, g) | (None, s1) => (Failure, s1, g) end = (Answer o, s1, g')) as EX.
  { intros s1. destruct r as [b|x| |u]; [destruct (parse_dictionary v b g)|..]; injection E as <- <-; reflexivity. }
  rewrite EY. exists d. split; [exact H1|]. split; [|split].
  - intros H0. destruct (H2 H0) as (-> & N & F). split; [reflexivity|]. split; [exact N|]. intros s Hs. destruct (F s Hs) as (s' & -> & HD).
    exists s'. split; [apply EX|exact HD].
  - intros H0 HS s q Hs HR. rewrite (H3 H0 HS s q Hs HR). apply EX.
  - intros H0 HS s Hs HR. destruct (H4 H0 HS s Hs HR) as (s' & -> & HD). exists s'. split; [apply EX|exact HD].
Qed.
Lemma load_mimics src m v d st g :
  match load_y src m v d st g with
  | (Escaped _, st', _) => i_good st' = false /\ exists x, i_got st' = i_got st ++ x
  | (Reply o, st', g') => exists x, i_got st' = i_got st ++ x /\
      (i_good st = false -> x = [] /\ i_good st' = false /\ forall s, dry s -> exists s', load_x no_mask v d s g = (Answer o, s', g') /\ dry s') /\
      (i_good st = true -> i_good st' = true -> forall s q, good s = true -> rest s = x ++ q -> load_x no_mask v d s g = (Answer o, set_rest s q, g')) /\
      (i_good st = true -> i_good st' = false -> forall s, good s = true -> rest s = x -> exists s', load_x no_mask v d s g = (Answer o, s', g') /\ dry s')
  end.
Proof.
  unfold load_y, load_x. pose proof (peek_mimics src m v st g) as H. destruct (peek_y src m v st g) as [[[x|o] st1] g1]; [exact H|].
  destruct H as (d1 & H1 & H2 & H3 & H4). destruct o as [h|e| |u].
  - pose proof (tensor_load_mimics src m v d h st1) as K. destruct (tensor_load_y src m v d h st1) as [[r|x] st2].
    + destruct K as (d2 & K1 & K2 & K3 & K4). exists (d1 ++ d2). split; [rewrite K1, H1; symmetry; apply app_assoc|].
      destruct (i_good st1) eqn:E1.
      * split; [intros X; destruct (H2 X) as (_ & X1 & _); congruence|]. split.
        -- intros X0 X2 s q Hs HR. rewrite <- app_assoc in HR. rewrite (H3 X0 eq_refl s _ Hs HR).
           rewrite (K3 eq_refl X2 (set_rest s (d2 ++ q)) q Hs eq_refl). reflexivity.
        -- intros X0 X2 s Hs HR. rewrite (H3 X0 eq_refl s _ Hs HR).
           destruct (K4 eq_refl X2 (set_rest s d2) Hs eq_refl) as (s' & -> & HD). eauto.
      * destruct (K2 eq_refl) as (-> & E2 & K5). rewrite app_nil_r. split; [|split].
        -- intros X0. destruct (H2 X0) as (-> & _ & X1). split; [reflexivity|]. split; [exact E2|]. intros s Hs.
           destruct (X1 s Hs) as (s1 & -> & Hs1). destruct (K5 s1 Hs1) as (s2 & -> & Hs2). eauto.
        -- intros _ X. congruence.
        -- intros X0 _ s Hs HR. destruct (H4 X0 eq_refl s Hs HR) as (s1 & -> & Hs1). destruct (K5 s1 Hs1) as (s2 & -> & Hs2). eauto.
    + destruct K as [K (d2 & K1)]. split; [exact K|]. exists (d1 ++ d2). rewrite K1, H1. symmetry. apply app_assoc.
  - exists d1. split; [exact H1|]. split; [|split].
    + intros X. destruct (H2 X) as (-> & X1 & X2). split; [reflexivity|]. split; [exact X1|]. intros s Hs. destruct (X2 s Hs) as (s' & -> & HD). eauto.
    + intros X0 X1 s q Hs HR. rewrite (H3 X0 X1 s q Hs HR). reflexivity.
    + intros X0 X1 s Hs HR. destruct (H4 X0 X1 s Hs HR) as (s' & -> & HD). eauto.
  - exists d1. split; [exact H1|]. split; [|split].
    + intros X. destruct (H2 X) as (-> & X1 & X2). split; [reflexivity|]. split; [exact X1|]. intros s Hs. destruct (X2 s Hs) as (s' & -> & HD). eauto.
    + intros X0 X1 s q Hs HR. rewrite (H3 X0 X1 s q Hs HR). reflexivity.
    + intros X0 X1 s Hs HR. destruct (H4 X0 X1 s Hs HR) as (s' & -> & HD). eauto.
  - exists d1. split; [exact H1|]. split; [|split].
    + intros X. destruct (H2 X) as (-> & X1 & X2). split; [reflexivity|]. split; [exact X1|]. intros s Hs. destruct (X2 s Hs) as (s' & -> & HD). eauto.
    + intros X0 X1 s q Hs HR. rewrite (H3 X0 X1 s q Hs HR). reflexivity.
    + intros X0 X1 s Hs HR. destruct (H4 X0 X1 s Hs HR) as (s' & -> & HD). eauto.
Qed.

Lemma to_plain A (call : instream -> globals -> reply A * instream * globals) (xcall : istream -> globals -> answer A * istream * globals)
    (plain : istream -> globals -> outcome A * istream * globals) st g :
  (forall s o s' g', xcall s g = (Answer o, s', g') -> exists s2, plain s g = (o, s2, g') /\ (s2 = s' \/ o = Undef UninitRead)) ->
  match call st g with
  | (Escaped _, st', _) => i_good st' = false /\ exists x, i_got st' = i_got st ++ x
  | (Reply o, st', g') => exists x, i_got st' = i_got st ++ x /\
      (i_good st = false -> x = [] /\ i_good st' = false /\ forall s, dry s -> exists s', xcall s g = (Answer o, s', g') /\ dry s') /\
      (i_good st = true -> i_good st' = true -> forall s q, good s = true -> rest s = x ++ q -> xcall s g = (Answer o, set_rest s q, g')) /\
      (i_good st = true -> i_good st' = false -> forall s, good s = true -> rest s = x -> exists s', xcall s g = (Answer o, s', g') /\ dry s')
  end -> as_delivered call plain st g.
Proof.
  intros HX H. unfold as_delivered. destruct (call st g) as [[[x|o] st'] g']; [exact H|].
  destruct H as (x & H1 & H2 & H3 & H4). exists x. split; [exact H1|].
  destruct (i_good st) eqn:E0.
  - destruct (i_good st') eqn:E1.
    + assert (forall later, exists s', plain (open_str (x ++ later)) g = (o, s', g') /\ (rest s' = later \/ o = Undef UninitRead)) as HL.
      { intros later. destruct (HX _ _ _ _ (H3 eq_refl eq_refl (open_str (x ++ later)) later eq_refl eq_refl)) as (s2 & E & HC).
        exists s2. split; [exact E|]. destruct HC as [->|HC]; [left; reflexivity|right; exact HC]. }
      split; [|auto]. destruct (HL []) as (s' & E & _). rewrite app_nil_r in E. eauto.
    + split; [|discriminate]. destruct (H4 eq_refl eq_refl (open_str x) eq_refl eq_refl) as (s' & E & _).
      destruct (HX _ _ _ _ E) as (s2 & E2 & _). eauto.
  - destruct (H2 eq_refl) as (-> & E1 & H5). split; [|congruence].
    destruct (H5 (open_str []) (or_intror eq_refl)) as (s' & E & _). destruct (HX _ _ _ _ E) as (s2 & E2 & _). eauto.
Qed.

(** ** The property *)
(** Any buffer, any state of the stream, any exceptions. *)
Theorem C81_as_delivered : forall src m v d st g,
  as_delivered (load_y src m v d) (load v d) st g /\ as_delivered (peek_y src m v) (peek v) st g.
Proof.
  intros src m v d st g. split.
  - apply to_plain with (load_x no_mask v d); [|apply load_mimics]. intros s o s' g' E.
    destruct (C78_same_or_failure no_mask v d s g eq_refl) as [H _]. rewrite E in H. destruct H as (s2 & H & HC & _). eauto.
  - apply to_plain with (peek_x no_mask v); [|apply peek_mimics]. intros s o s' g' E.
    destruct (C78_same_or_failure no_mask v d s g eq_refl) as [_ H]. rewrite E in H. destruct H as (s2 & H & HC & _). eauto.
Qed.
Print Assumptions C81_as_delivered.

(** Without exceptions switched on nothing escapes, whatever the buffer throws. *)
Definition none : in_mask := mk_in_mask false false false.
Definition returns {A} (x : reply A * instream * globals) : Prop := exists o, fst (fst x) = Reply o.
Lemma mild_closed : closed (@mild).
Proof. split; [exact mild_ret|exact mild_bind]. Qed.
Lemma alert_closed : closed (@alert).
Proof. split; [exact alert_ret|exact alert_bind]. Qed.
Theorem C81_nothing_escapes : forall src v d st g,
  returns (load_y src none v d st g) /\ returns (peek_y src none v st g).
Proof.
  intros src v d st g.
  assert (forall n, mild (yread src none n)) as HR.
  { intros n s. unfold yread, refused, settle. destruct (i_good s); [|eexists; reflexivity].
    destruct (src (i_asked s) (Many n)); eexists; reflexivity. }
  assert (mild (yget src none)) as HG.
  { intros s. unfold yget, refused, settle. destruct (i_good s); [|eexists; reflexivity].
    destruct (src (i_asked s) One) as [[|c b]|b]; eexists; reflexivity. }
  assert (forall s, returns (peek_y src none v s g)) as HP.
  { intros s. unfold peek_y. destruct (all_dict _ src none mild_closed HR v s) as [r E].
    destruct (ydict src none v s) as [r' s1]. cbn [fst] in E. subst r'.
    destruct r as [b|x| |u]; [destruct (parse_dictionary v b g)|..]; eexists; reflexivity. }
  split; [|apply HP]. unfold load_y. destruct (HP st) as [o E]. destruct (peek_y src none v st g) as [[a s1] g1]. cbn [fst] in E. subst a.
  destruct o as [h|x| |u]; try (eexists; reflexivity).
  destruct (all_tensor _ src none mild_closed HR HG v d h s1) as [r E]. destruct (tensor_load_y src none v d h s1) as [r' s2].
  cbn [fst] in E. subst r'. eexists; reflexivity.
Qed.
Print Assumptions C81_nothing_escapes.

(** badbit, and failbit or eofbit: a call of a good stream returns exactly when the buffer delivered all it was asked for
    (the stream is still good). *)
Definition strict (m : in_mask) : Prop := i_bad m = true /\ (i_fail m = true \/ i_eof m = true).
Lemma strict_fires m s : strict m -> s_bad s = true \/ (s_fail s = true /\ s_eof s = true) -> i_fires m s = true.
Proof.
  intros [HB HM] H. unfold i_fires. destruct H as [H|[H1 H2]].
  - now rewrite HB, H.
  - destruct HM as [HM|HM]; rewrite HM, ?H1, ?H2; cbn; rewrite ?orb_true_r; reflexivity.
Qed.
Lemma strict_read src m n : strict m -> alert (yread src m n).
Proof.
  intros Hm s Hs. unfold yread, settle. rewrite Hs. destruct (src (i_asked s) (Many n)) as [b|b].
  - cbv zeta. destruct (_ <? n).
    + rewrite strict_fires; auto.
    + set (s1 := mk_instream _ _ _ _ _). assert (i_fires m s1 = false) as -> by (unfold i_fires, s1; cbn; now rewrite !andb_false_r). reflexivity.
  - destruct Hm as [-> _]. reflexivity.
Qed.
Lemma strict_get src m : strict m -> alert (yget src m).
Proof.
  intros Hm s Hs. unfold yget, settle. rewrite Hs. destruct (src (i_asked s) One) as [[|c b]|b].
  - rewrite strict_fires; auto.
  - reflexivity.
  - cbv zeta. destruct Hm as [-> _]. reflexivity.
Qed.
Definition by_the_state {A} (x : reply A * instream * globals) : Prop :=
  match x with (Reply _, st', _) => i_good st' = true | (Escaped _, st', _) => i_good st' = false end.
Theorem C81_all_or_exception : forall src m v d st g, strict m -> i_good st = true ->
  by_the_state (load_y src m v d st g) /\ by_the_state (peek_y src m v st g).
Proof.
  intros src m v d st g Hm Hs.
  assert (by_the_state (peek_y src m v st g)) as HP.
  { unfold peek_y. pose proof (all_dict _ src m alert_closed (fun n => strict_read src m n Hm) v st Hs) as H.
    destruct (ydict src m v st) as [[r|x] s1]; [|exact H].
    destruct r as [b|x| |u]; [destruct (parse_dictionary v b g)|..]; exact H. }
  split; [|exact HP]. unfold load_y. destruct (peek_y src m v st g) as [[[x|o] s1] g1]; [exact HP|]. cbn [by_the_state] in HP.
  destruct o as [h|x| |u]; try exact HP.
  pose proof (all_tensor _ src m alert_closed (fun n => strict_read src m n Hm) (strict_get src m Hm) v d h s1 HP) as H.
  destruct (tensor_load_y src m v d h s1) as [[r|x] s2]; exact H.
Qed.
Print Assumptions C81_all_or_exception.

(** A buffer that always delivers what it is asked for: nothing escapes, under any mask. *)
Definition willing (src : source) : Prop :=
  (forall asked n, exists b, src asked (Many n) = Gave b /\ n <= len b) /\
  (forall asked, exists c b, src asked One = Gave (c :: b)).
Definition steady {A} (op : Y A) : Prop := forall st, i_good st = true -> exists r st', op st = (Read r, st') /\ i_good st' = true.
Lemma steady_closed : closed (@steady).
Proof.
  split; [intros A r st H; exists r, st; auto|]. intros A B a f Ha Hf st Hs. unfold ybind.
  destruct (Ha st Hs) as (r & s1 & -> & H1). exact (Hf r s1 H1).
Qed.
Theorem C81_willing_buffers : forall src m v d st g, willing src -> i_good st = true ->
  returns (load_y src m v d st g) /\ returns (peek_y src m v st g).
Proof.
  intros src m v d st g [HW1 HW2] Hs.
  assert (forall n, steady (yread src m n)) as HR.
  { intros n s G. unfold yread, settle. rewrite G. destruct (HW1 (i_asked s) n) as (b & -> & Hb). cbv zeta.
    assert (len (ztake n b) <? n = false) as ->.
    { apply Z.ltb_ge. pose proof (len_nonneg _ (ztake n b)). rewrite len_ztake. lia. }
    set (s1 := mk_instream _ _ _ _ _). assert (i_fires m s1 = false) as -> by (unfold i_fires, s1; cbn; now rewrite !andb_false_r).
    eexists _, _. split; reflexivity. }
  assert (steady (yget src m)) as HG.
  { intros s G. unfold yget. rewrite G. destruct (HW2 (i_asked s)) as (c & b & ->). eexists _, _. split; reflexivity. }
  assert (exists o s1 g1, peek_y src m v st g = (Reply o, s1, g1) /\ i_good s1 = true) as (o & s1 & g1 & E & G1).
  { unfold peek_y. destruct (all_dict _ src m steady_closed HR v st Hs) as (r & s1 & -> & G1).
    destruct r as [b|x| |u]; [destruct (parse_dictionary v b g)|..]; eexists _, _, _; split; try reflexivity; exact G1. }
  split; [|rewrite E; eexists; reflexivity]. unfold load_y. rewrite E. destruct o as [h|x| |u]; try (eexists; reflexivity).
  destruct (all_tensor _ src m steady_closed HR HG v d h s1 G1) as (r & s2 & -> & _). eexists; reflexivity.
Qed.
Print Assumptions C81_willing_buffers.

(** A stream that is not good when it is handed over: with failbit on the call throws at once, without asking the buffer;
    with badbit or eofbit alone it does so if that is what is wrong with the stream. *)
Theorem C81_bad_from_the_start : forall src m v d st g, s_bad st = true \/ s_fail st = true \/ s_eof st = true ->
  i_fail m = true \/ (i_bad m = true /\ s_bad st = true) \/ (i_eof m = true /\ s_eof st = true) ->
  let left := mk_instream (i_got st) (i_asked st) (s_bad st) true (s_eof st) in
  load_y src m v d st g = (Escaped IosFailure, left, g) /\ peek_y src m v st g = (Escaped IosFailure, left, g).
Proof.
  intros src m v d st g G HM left.
  assert (i_good st = false) as G'.
  { unfold i_good. destruct G as [->|[->| ->]]; [reflexivity|now rewrite orb_true_r|now rewrite !orb_true_r]. }
  assert (peek_y src m v st g = (Escaped IosFailure, left, g)) as H.
  { unfold peek_y, ydict, ybind, yread, refused, settle. rewrite G'. fold left.
    assert (i_fires m left = true) as ->; [|reflexivity]. unfold i_fires, left. cbn [s_bad s_fail s_eof].
    destruct HM as [->|[[-> ->]|[-> ->]]]; [cbn; now rewrite orb_true_r|reflexivity|apply orb_true_r]. }
  split; [|exact H]. unfold load_y. now rewrite H.
Qed.
Print Assumptions C81_bad_from_the_start.

(** Which exception escapes: std::ios_base::failure if the buffer throws nothing; the buffer's own if it delivers in full
    until it throws, and badbit is on. *)
Definition never_throws (src : source) : Prop := forall asked r, exists b, src asked r = Gave b.
Definition full_or_throws (src : source) : Prop :=
  (forall asked n, match src asked (Many n) with Gave b => n <= len b | Broke _ => True end) /\
  (forall asked, src asked One <> Gave []).
Definition escapes_only {A} (x : leaving) (r : reply A * instream * globals) : Prop :=
  match r with (Escaped y, _, _) => y = x | _ => True end.
Definition plainly {A} (op : Y A) : Prop := forall st, match op st with (Left x, _) => x = IosFailure | _ => True end.
Definition loudly {A} (op : Y A) : Prop := forall st, i_good st = true ->
  match op st with (Left x, _) => x = BufferThrew | (Read _, st') => i_good st' = true end.
Lemma plainly_closed : closed (@plainly).
Proof.
  split; [intros A r st; exact I|]. intros A B a f Ha Hf st. unfold ybind. specialize (Ha st).
  destruct (a st) as [[r|x] s1]; [apply Hf|exact Ha].
Qed.
Lemma loudly_closed : closed (@loudly).
Proof.
  split; [intros A r st H; exact H|]. intros A B a f Ha Hf st Hs. unfold ybind. specialize (Ha st Hs).
  destruct (a st) as [[r|x] s1]; [now apply Hf|exact Ha].
Qed.
Theorem C81_which_exception : forall src m v d st g,
  (never_throws src -> escapes_only IosFailure (load_y src m v d st g) /\ escapes_only IosFailure (peek_y src m v st g)) /\
  (full_or_throws src -> i_bad m = true -> i_good st = true ->
   escapes_only BufferThrew (load_y src m v d st g) /\ escapes_only BufferThrew (peek_y src m v st g)).
Proof.
  intros src m v d st g. split.
  - intros HN.
    assert (forall A (r : A) s, match settle m r s with (Left x, _) => x = IosFailure | _ => True end) as HS.
    { intros A r s. unfold settle. destruct (i_fires m s); exact eq_refl || exact I. }
    assert (forall n, plainly (yread src m n)) as HR.
    { intros n s. unfold yread, refused. destruct (i_good s); [|apply HS]. destruct (HN (i_asked s) (Many n)) as [b ->]. apply HS. }
    assert (plainly (yget src m)) as HG.
    { intros s. unfold yget, refused. destruct (i_good s); [|apply HS]. destruct (HN (i_asked s) One) as [[|c b] ->]; [apply HS|exact I]. }
    assert (escapes_only IosFailure (peek_y src m v st g)) as HP.
    { unfold peek_y. pose proof (all_dict _ src m plainly_closed HR v st) as H. destruct (ydict src m v st) as [[r|x] s1]; [|exact H].
      destruct r as [b|x| |u]; [destruct (parse_dictionary v b g)|..]; exact I. }
    split; [|exact HP]. unfold load_y. destruct (peek_y src m v st g) as [[[x|o] s1] g1]; [exact HP|].
    destruct o as [h|x| |u]; try exact I.
    pose proof (all_tensor _ src m plainly_closed HR HG v d h s1) as H. destruct (tensor_load_y src m v d h s1) as [[r|x] s2]; [exact I|exact H].
  - intros [HF1 HF2] HM Hs.
    assert (forall n, loudly (yread src m n)) as HR.
    { intros n s G. unfold yread, settle. rewrite G. specialize (HF1 (i_asked s) n). destruct (src (i_asked s) (Many n)) as [b|b].
      - cbv zeta. assert (len (ztake n b) <? n = false) as ->.
        { apply Z.ltb_ge. pose proof (len_nonneg _ (ztake n b)). rewrite len_ztake. lia. }
        set (s1 := mk_instream _ _ _ _ _). assert (i_fires m s1 = false) as -> by (unfold i_fires, s1; cbn; now rewrite !andb_false_r). reflexivity.
      - rewrite HM. reflexivity. }
    assert (loudly (yget src m)) as HG.
    { intros s G. unfold yget. rewrite G. specialize (HF2 (i_asked s)). destruct (src (i_asked s) One) as [[|c b]|b]; [contradiction|reflexivity|].
      cbv zeta. rewrite HM. reflexivity. }
    assert (match peek_y src m v st g with (Escaped y, _, _) => y = BufferThrew | (Reply _, s1, _) => i_good s1 = true end) as HP.
    { unfold peek_y. pose proof (all_dict _ src m loudly_closed HR v st Hs) as H. destruct (ydict src m v st) as [[r|x] s1]; [|exact H].
      destruct r as [b|x| |u]; [destruct (parse_dictionary v b g)|..]; exact H. }
    unfold load_y. destruct (peek_y src m v st g) as [[[x|o] s1] g1]; [split; exact HP|]. split; [|exact I].
    destruct o as [h|x| |u]; try exact I.
    pose proof (all_tensor _ src m loudly_closed HR HG v d h s1 HP) as H. destruct (tensor_load_y src m v d h s1) as [[r|x] s2]; [exact I|exact H].
Qed.
Print Assumptions C81_which_exception.

(** Saved arrays: whatever the buffer does, if what it delivers is of the file then load gives the array, having had
    exactly the file, or an exception escapes. *)
Theorem C81_saved_files : forall src m v2 t file st g, strict m -> i_good st = true ->
  saved_as v2 t file -> prior_parses g ->
  match load_y src m v2 (t_dtype t) st g with
  | (Escaped _, _, _) => True
  | (Reply o, st', _) => exists delivered, i_got st' = i_got st ++ delivered /\
      forall later before, delivered ++ later = file ++ before -> o = Ok t /\ delivered = file
  end.
Proof.
  intros src m v2 t file st g Hm Hs (v1 & e & Ht & HF & HR & HC & HN & HS) Hg.
  destruct (C81_all_or_exception src m v2 (t_dtype t) st g Hm Hs) as [HA _].
  destruct (C81_as_delivered src m v2 (t_dtype t) st g) as [HD _]. unfold as_delivered in HD.
  destruct (load_y src m v2 (t_dtype t) st g) as [[[x|o] st'] g']; [exact I|]. cbn [by_the_state] in HA.
  destruct HD as (x & H1 & _ & H3). destruct (H3 HA) as [_ H4]. exists x. split; [exact H1|]. intros later before E.
  destruct (H4 later) as (s' & EL & HR').
  destruct (C26_save_load_round_trip v1 v2 t e Ht HF HR HC HN) as (file' & HS' & HL). rewrite HS in HS'. injection HS' as <-.
  destruct (HL (open_str (x ++ later)) g before eq_refl Hg E) as (g2 & HLoad & _). rewrite EL in HLoad. injection HLoad as -> -> _.
  split; [reflexivity|]. destruct HR' as [HR'|HR']; [|discriminate]. cbn [rest set_rest] in HR'. subst later. now apply app_inv_tail in E.
Qed.
Print Assumptions C81_saved_files.

(** A case: a buffer over a file of 132 bytes that delivers what it is asked for up to byte 131 and then throws. With
    badbit and failbit the exception escapes; without, the last value is wrong; with failbit alone nothing escapes either. *)
Fixpoint asked_for (l : list request) : Z :=
  match l with [] => 0 | Many n :: l => n + asked_for l | One :: l => 1 + asked_for l end.
Definition breaks_at (file : bytes) (limit : Z) : source := fun asked r =>
  let p := asked_for asked in
  let n := match r with Many n => n | One => 1 end in
  if p + n <=? limit then Gave (ztake n (zdrop p file)) else Broke (ztake (limit - p) (zdrop p file)).
Example C81_case :
  let file := match save case_env case_tensor NATIVE with Ok b => b | _ => [] end in
  let g0 := (zrepeat 0 65536, DTYPE_MAP) in
  let fresh := mk_instream [] [] false false false in
  let run limit m := load_y (breaks_at file limit) m case_env UINT16 fresh g0 in
  fst (fst (run 132 (mk_in_mask true true false))) = Reply (Ok case_tensor) /\
  fst (fst (run 131 (mk_in_mask true true false))) = Escaped BufferThrew /\
  i_got (snd (fst (run 131 (mk_in_mask true true false)))) = ztake 131 file /\
  fst (fst (run 131 none)) = Reply (Ok (mk_tensor [2] [1] false UINT16 [Scalar 258; Scalar 3])) /\
  fst (fst (run 131 (mk_in_mask false true true))) = Reply (Ok (mk_tensor [2] [1] false UINT16 [Scalar 258; Scalar 3])) /\
  fst (fst (run 100 (mk_in_mask false true true))) = Escaped IosFailure /\
  fst (fst (load_y (fun _ _ => Gave []) (mk_in_mask false false true) case_env UINT16 fresh g0)) = Escaped IosFailure.
Proof. vm_compute. repeat split. Qed.
