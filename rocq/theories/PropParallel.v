(** Property C74: programs in parallel. *)
From Coq Require Import String ZArith List Bool Lia.
From Verif Require Import Base Stream BaseFacts Dtype Values Spec ValuesFacts Header HeaderFacts ParseFacts ParserInv ParserRel NpyFacts Tensor Npy TensorVars Files
  Npz ZipFiles PropCompress Race PropRace Threads PropThreads Program ProgramSpec PropTensor PropDisk Arr Tinfl Tdefl PropProgram Parallel ProgServe PropForeign PropOthers Sessions SessionSpec PropSessions.
Import ListNotations.
Open Scope Z_scope.

(** ** Frame: a step only looks at and changes its own paths *)
Definition path_of (x : step) : option bytes :=
  match x with SSave _ _ p | SLoad _ p | SPeek p | SNew _ _ p _ _ | SOpen _ p => Some p | _ => None end.
Definition written_by (x : step) : option bytes :=
  match x with SSave _ _ p | SNew _ _ p _ _ => Some p | _ => None end.
Definition agree_on (own : bytes -> Prop) (k1 k2 : disk) : Prop :=
  (forall p, can_write k1 p = can_write k2 p) /\ forall p, own p -> file_at k1 p = file_at k2 p.
Definition owned_by (own : bytes -> Prop) (W : nat -> option file_writer) : Prop :=
  forall h fw, W h = Some fw -> fw_open fw = true -> own (fw_path fw).
(** What becomes of a disk when only own files change. *)
Definition keeps_others (own : bytes -> Prop) (k k' : disk) : Prop :=
  (forall p, can_write k' p = can_write k p) /\ forall p, ~ own p -> file_at k' p = file_at k p.

Lemma agree_put own k1 k2 p b : agree_on own k1 k2 -> agree_on own (disk_put k1 p b) (disk_put k2 p b).
Proof. intros [H1 H2]. split; [exact H1|]. intros q Hq. cbn [disk_put file_at]. destruct (beq q p); auto. Qed.
Lemma keeps_put (own : bytes -> Prop) k p b : own p -> keeps_others own k (disk_put k p b).
Proof.
  intros Hp. split; [reflexivity|]. intros q Hq. cbn [disk_put file_at]. destruct (beq q p) eqn:E; [|reflexivity].
  apply beq_eq in E. subst q. contradiction.
Qed.
Lemma keeps_refl own k : keeps_others own k k. Proof. split; auto. Qed.
Lemma keeps_trans own k1 k2 k3 : keeps_others own k1 k2 -> keeps_others own k2 k3 -> keeps_others own k1 k3.
Proof. intros [H1 H2] [H3 H4]. split; intros p; [rewrite H3; auto|]. intros Hp. rewrite H4, H2; auto. Qed.
Lemma destroy_frame (own mine : bytes -> Prop) fw k1 k2 : agree_on own k1 k2 -> (fw_open fw = true -> mine (fw_path fw)) ->
  agree_on own (fw_destroy fw k1) (fw_destroy fw k2) /\ keeps_others mine k2 (fw_destroy fw k2).
Proof.
  intros HA HO. unfold fw_destroy, fw_close. destruct (w_closed (fw_w fw)); cbn [snd]; [split; [exact HA|apply keeps_refl]|].
  destruct (fw_open fw); [|split; [exact HA|apply keeps_refl]]. split; [now apply agree_put|now apply keeps_put, HO].
Qed.
Lemma owned_put (own : bytes -> Prop) W h fw : owned_by own W -> (fw_open fw = true -> own (fw_path fw)) ->
  owned_by own (fun i => if (i =? h)%nat then Some fw else W i).
Proof. intros HW HF i f. destruct (i =? h)%nat; [intros [= <-]; exact HF|apply HW]. Qed.
Lemma owned_drop own W h : owned_by own W -> owned_by own (fun i => if (i =? h)%nat then None else W i).
Proof. intros HW i f. destruct (i =? h)%nat; [discriminate|apply HW]. Qed.

Lemma exec_frame (own mine : bytes -> Prop) v c ty x m k1 k2 W R g1 g2 : agree_on own k1 k2 -> (forall p, path_of x = Some p -> own p) ->
  (forall p, written_by x = Some p -> mine p) -> owned_by mine W ->
  prepares v c ty x (mk_machine m k1 W R g1) = None ->
  exists o m' k1' k2' W' R', exec v c ty x (mk_machine m k1 W R g1) = (o, mk_machine m' k1' W' R' g1) /\
    exec v c ty x (mk_machine m k2 W R g2) = (o, mk_machine m' k2' W' R' g2) /\
    agree_on own k1' k2' /\ owned_by mine W' /\ keeps_others mine k2 k2'.
Proof.
  intros HA HP HMine HW HN. pose proof HA as [HA1 HA2].
  assert (forall o m', exists m'' k1' k2' W' R', (o, mk_machine m' k1 W R g1) = (o, mk_machine m'' k1' W' R' g1) /\
    (o, mk_machine m' k2 W R g2) = (o : outcome seen, mk_machine m'' k2' W' R' g2) /\
    agree_on own k1' k2' /\ owned_by mine W' /\ keeps_others mine k2 k2') as HSame.
  { intros o m'. exists m', k1, k2, W, R. split; [reflexivity|]. split; [reflexivity|]. split; [exact HA|]. split; [exact HW|apply keeps_refl]. }
  assert (forall o R', exists m'' k1' k2' W' R'', (o, mk_machine m k1 W R' g1) = (o, mk_machine m'' k1' W' R'' g1) /\
    (o, mk_machine m k2 W R' g2) = (o : outcome seen, mk_machine m'' k2' W' R'' g2) /\
    agree_on own k1' k2' /\ owned_by mine W' /\ keeps_others mine k2 k2') as HSameR.
  { intros o R'. exists m, k1, k2, W, R'. split; [reflexivity|]. split; [reflexivity|]. split; [exact HA|]. split; [exact HW|apply keeps_refl]. }
  assert (forall o k1' k2' W', agree_on own k1' k2' -> owned_by mine W' -> keeps_others mine k2 k2' ->
    exists m'' k1'' k2'' W'' R'', (o, mk_machine m k1' W' R g1) = (o, mk_machine m'' k1'' W'' R'' g1) /\
    (o, mk_machine m k2' W' R g2) = (o : outcome seen, mk_machine m'' k2'' W'' R'' g2) /\
    agree_on own k1'' k2'' /\ owned_by mine W'' /\ keeps_others mine k2 k2'') as HDisk.
  { intros o k1' k2' W' B1 B2 B3. exists m, k1', k2', W', R. auto. }
  destruct x as [a|i index|i|i e p|i p|p|h d p me e|h name i|h|h|r p|i r name|r name|r name|r];
    cbn [exec prepares path_of written_by m_vars m_disk m_writers m_readers m_globals on_vars on_globals on_disk_only on_writer on_reader] in *.
  - destruct (act v (ty (target a)) a m) as [m'|ex| |u]; eexists; apply HSame.
  - eexists. apply HSame.
  - eexists. apply HSame.
  - unfold save_path. rewrite <- HA1. destruct (can_write k1 p).
    + destruct (save v (m i) e) as [b|ex| |u]; cbn [obind]; eexists; (apply HDisk; [now apply agree_put|exact HW|apply keeps_put; auto]).
    + eexists. apply HDisk; [exact HA|exact HW|apply keeps_refl].
  - unfold load_path. rewrite <- HA2 by auto. destruct (file_at k1 p); [discriminate|]. eexists. apply HSame.
  - unfold peek_path. rewrite <- HA2 by auto. destruct (file_at k1 p); [discriminate|]. eexists. apply HSame.
  - unfold fw_new.
    assert (agree_on own (match W h with Some w => fw_destroy w k1 | None => k1 end) (match W h with Some w => fw_destroy w k2 | None => k2 end) /\
      keeps_others mine k2 (match W h with Some w => fw_destroy w k2 | None => k2 end)) as [B1 B2].
    { destruct (W h) as [fw|] eqn:E; [|split; [exact HA|apply keeps_refl]]. apply destroy_frame; [exact HA|]. intros HO. exact (HW h fw E HO). }
    destruct B1 as [B1 B1']. rewrite <- B1. destruct (can_write (match W h with Some w => fw_destroy w k1 | None => k1 end) p).
    + eexists. apply HDisk; [apply agree_put; split; assumption|apply owned_put; [exact HW|intros _; cbn [fw_path]; auto]|].
      eapply keeps_trans; [exact B2|]. apply keeps_put. auto.
    + eexists. apply HDisk; [split; assumption|apply owned_put; [exact HW|discriminate]|exact B2].
  - destruct (W h) as [fw|] eqn:E; [|eexists; apply HSame]. unfold fw_write.
    destruct (w_write_on (dwrite (fw_dev fw)) v c (fw_w fw) name (m i)) as [x|ex| |u].
    2-4: eexists; apply HDisk; [exact HA|apply owned_put; [exact HW|exact (HW h fw E)]|apply keeps_refl].
    pose proof (HW h fw E) as HO. destruct (fw_open fw).
    + eexists. apply HDisk; [now apply agree_put|apply owned_put; [exact HW|cbn [fw_path]; auto]|apply keeps_put; auto].
    + eexists. apply HDisk; [exact HA|apply owned_put; [exact HW|discriminate]|apply keeps_refl].
  - destruct (W h) as [fw|] eqn:E; [|eexists; apply HSame]. unfold fw_close. destruct (w_closed (fw_w fw)).
    + eexists. apply HDisk; [exact HA|apply owned_put; [exact HW|exact (HW h fw E)]|apply keeps_refl].
    + pose proof (HW h fw E) as HO. destruct (fw_open fw); eexists; apply HDisk;
        [now apply agree_put|apply owned_put; [exact HW|discriminate]|apply keeps_put; auto|exact HA|apply owned_put; [exact HW|discriminate]|apply keeps_refl].
  - destruct (W h) as [fw|] eqn:E; [|eexists; apply HSame]. destruct (destroy_frame own mine fw k1 k2 HA (HW h fw E)) as [B1 B2].
    eexists. apply HDisk; [exact B1|now apply owned_drop|exact B2].
  - unfold fr_open. rewrite <- HA2 by auto.
    match goal with |- context [match ?z with Ok _ => _ | Throw _ => _ | AssertFail => _ | Undef _ => _ end] => destruct z as [y|ex| |u] end;
      eexists; [apply HSameR|apply HSameR|apply HSame|apply HSame].
  - destruct (R r) as [y|]; [|eexists; apply HSame]. unfold r_read. destruct (r_read_file v c y name) as [[b|ex| |u] y'];
      [discriminate|..]; eexists; apply HSameR.
  - destruct (R r) as [y|]; [|eexists; apply HSame]. unfold r_peek. destruct (r_read_file v c y name) as [[b|ex| |u] y'];
      [discriminate|..]; eexists; apply HSameR.
  - destruct (R r) as [y|]; eexists; apply HSame.
  - destruct (R r) as [y|]; eexists; apply HSame.
Qed.
Lemma prepares_frame (own : bytes -> Prop) v c ty x m k1 k2 W R g1 g2 : agree_on own k1 k2 -> (forall p, path_of x = Some p -> own p) ->
  prepares v c ty x (mk_machine m k1 W R g1) = prepares v c ty x (mk_machine m k2 W R g2).
Proof.
  intros [_ HA] HP. destruct x; cbn [prepares path_of m_disk m_readers] in *; try reflexivity; rewrite HA by auto; reflexivity.
Qed.
(** A call that parses: preparation, the parse on its own, conclusion. *)
Lemma exec_parses v c ty x m k W R g j R' : prepares v c ty x (mk_machine m k W R g) = Some (j, R') ->
  exists g', exec v c ty x (mk_machine m k W R g) =
    (fst (concludes x (alone v g j) m), mk_machine (snd (concludes x (alone v g j) m)) k W R' g').
Proof.
  destruct x as [a|i index|i|i e p|i p|p|h d p me e|h name i|h|h|r p|i r name|r name|r name|r];
    cbn [exec prepares m_vars m_disk m_writers m_readers m_globals on_vars on_globals on_disk_only on_writer on_reader]; try discriminate.
  - unfold load_path. destruct (file_at k p) as [b|]; [|discriminate]. intros [= <- <-]. cbn [alone].
    destruct (load v (ty i) (open_file b) g) as [[o s'] g']. cbn [fst]. destruct o as [t|ex| |u]; exists g'; reflexivity.
  - unfold peek_path. destruct (file_at k p) as [b|]; [|discriminate]. intros [= <- <-]. cbn [alone].
    destruct (peek v (open_file b) g) as [[o s'] g']. cbn [fst]. destruct o as [t|ex| |u]; exists g'; reflexivity.
  - destruct (R r) as [y|] eqn:ER; [|discriminate]. unfold r_read. destruct (r_read_file v c y name) as [[b|ex| |u] y']; try discriminate.
    intros [= <- <-]. cbn [alone]. destruct (load v (ty i) (open_str b) g) as [[o s'] g']. cbn [fst]. destruct o as [t|ex| |u]; exists g'; reflexivity.
  - destruct (R r) as [y|] eqn:ER; [|discriminate]. unfold r_peek. destruct (r_read_file v c y name) as [[b|ex| |u] y']; try discriminate.
    intros [= <- <-]. cbn [alone]. destruct (peek v (open_str b) g) as [[o s'] g']. cbn [fst]. destruct o as [t|ex| |u]; exists g'; reflexivity.
Qed.
(** Only the calls that the lock is around parse headers; the others leave the scratch buffer
    and the dtype map as they are. *)
Theorem C74_which_calls_parse : forall v c ty x s,
  (forall j R', prepares v c ty x s = Some (j, R') -> reads_header x = true) /\
  (reads_header x = false -> m_globals (snd (exec v c ty x s)) = m_globals s).
Proof.
  intros v c ty x s. split; [intros j R'; destruct x; cbn [prepares reads_header]; (reflexivity || discriminate)|].
  destruct x as [a|i index|i|i e p|i p|p|h d p m e|h name i|h|h|r p|i r name|r name|r name|r]; cbn [reads_header exec]; intros H; try discriminate H; try reflexivity.
  - destruct (act v _ a (m_vars s)); reflexivity.
  - destruct (save_path v _ e p _ (m_disk s)); reflexivity.
  - destruct (m_writers s h); [|reflexivity]. destruct (fw_write v c f name _ (m_disk s)) as [[o w'] k]; reflexivity.
  - destruct (m_writers s h); [|reflexivity]. destruct (fw_close f (m_disk s)); reflexivity.
  - destruct (m_writers s h); reflexivity.
  - destruct (fr_open p (m_disk s)); reflexivity.
  - destruct (m_readers s r); reflexivity.
  - destruct (m_readers s r); reflexivity.
Qed.

(** ** The threads *)
Definition mentions (program : list step) (p : bytes) : Prop := exists x, In x program /\ path_of x = Some p.
Definition writes (program : list step) (p : bytes) : Prop := exists x, In x program /\ written_by x = Some p.
Lemma writes_mentions l p : writes l p -> mentions l p.
Proof. intros (x & H1 & H2). exists x. split; [exact H1|]. destruct x; try discriminate H2; exact H2. Qed.

Section Threads.
  Variables (v : env) (c : codec) (ty : nat -> typing) (k0 : disk) (g0 : globals) (programs : nat -> list step) (w0 : world).
  Hypothesis (HC : libnpy_codec v c) (HMem : 2 ^ 32 <= mem v) (Hg0 : prior_parses g0).
  Hypothesis Hown : forall i j p, writes (programs i) p -> mentions (programs j) p -> i = j.
  Variable good : proc answer -> outcome answer -> globals -> Prop.
  Variable may : workers -> nat -> Prop.
  Hypothesis Hstart : forall j g, map_ok (snd g) -> good (job_proc v j) (alone v g0 j) g.
  Hypothesis Hstep : forall p o g p' g', good p o g -> map_ok (snd g) -> thread_step p g = (p', g') -> good p' o g'.
  Hypothesis Hdone : forall o s o' g, good (Race.Done o s) o' g -> map_ok (snd g) -> o = o'.
  Hypothesis Hkeep : forall w i j p x o g g', may w i -> parsing (w i) -> j <> i -> k_call (w j) = Some (p, x) -> good p o g -> good p o g'.

  Let opens := can_write k0.
  Let obs i l := fst (ideally (mem v) opens (ty i) l w0).
  Let after i l := snd (ideally (mem v) opens (ty i) l w0).
  Definition fine (i : nat) (w : world) (m : objects) (k : disk) (W : nat -> option file_writer) (R : nat -> option reader) : Prop :=
    exists kv, agree_on (mentions (programs i)) kv k /\ follows v c opens (ty i) w (mk_machine m kv W R g0) /\
      owned_by (writes (programs i)) W.
  Definition worker_at (i : nat) (t : worker) (k : disk) (g : globals) : Prop := exists fin rest,
    programs i = fin ++ rest /\ k_seen t = obs i fin /\ all_covered (mem v) (host_big v) opens (ty i) rest (after i fin) /\
    match k_call t with
    | None => k_todo t = rest /\ fine i (after i fin) (k_vars t) k (k_writers t) (k_readers t)
    | Some (p, x) => exists r j, rest = x :: r /\ k_todo t = r /\ reads_header x = true /\ good p (alone v g0 j) g /\
        fst (concludes x (alone v g0 j) (k_vars t)) = reported (fst (ideal (mem v) opens (ty i) x (after i fin))) /\
        fine i (after i (fin ++ [x])) (snd (concludes x (alone v g0 j) (k_vars t))) k (k_writers t) (k_readers t)
    end.
  Lemma ideally_app i a b w : ideally (mem v) opens (ty i) (a ++ b) w =
    let (o1, w1) := ideally (mem v) opens (ty i) a w in let (o2, w2) := ideally (mem v) opens (ty i) b w1 in (o1 ++ o2, w2).
  Proof.
    revert w. induction a as [|x a IH]; intros w; cbn [app ideally]; [now destruct (ideally _ _ _ b w)|].
    destruct (ideal (mem v) opens (ty i) x w) as [o w1]. rewrite IH. destruct (ideally _ _ _ a w1) as [o1 w2]. now destruct (ideally _ _ _ b w2).
  Qed.
  Lemma after_snoc i a x : after i (a ++ [x]) = snd (ideal (mem v) opens (ty i) x (after i a)).
  Proof.
    unfold after. rewrite ideally_app. destruct (ideally _ _ _ a _) as [o1 w1]. cbn [ideally snd]. now destruct (ideal _ _ _ x w1).
  Qed.
  Lemma obs_snoc i a x : obs i (a ++ [x]) = obs i a ++ [fst (ideal (mem v) opens (ty i) x (after i a))].
  Proof.
    unfold obs, after. rewrite ideally_app. destruct (ideally _ _ _ a _) as [o1 w1]. cbn [ideally fst snd]. now destruct (ideal _ _ _ x w1).
  Qed.
  Lemma noted_reported o : noted (reported o) = Ok o.
  Proof. now destruct o. Qed.
  Lemma fine_elsewhere i w m k k' W R : fine i w m k W R -> (forall p, can_write k' p = can_write k p) ->
    (forall p, mentions (programs i) p -> file_at k' p = file_at k p) -> fine i w m k' W R.
  Proof.
    intros (kv & [H1 H2] & H3 & H4) K1 K2. exists kv. split; [|split; assumption]. split; [intros p; rewrite K1; apply H1|].
    intros p Hp. rewrite K2 by exact Hp. now apply H2.
  Qed.
  Lemma map_ok_thread {A} (p : proc A) g p' g' : thread_step p g = (p', g') -> map_ok (snd g) -> map_ok (snd g').
  Proof.
    intros HS Hm. destruct p as [o s|b k|n k|cd k]; cbn [thread_step] in HS; try (injection HS as <- <-; exact Hm).
    pose proof (map_ok_step cd (snd g) Hm) as HX. destruct (from_dtype cd (snd g)) as [de m]. injection HS as <- <-. exact HX.
  Qed.

  (** One move of thread [i]. *)
  Lemma move_at i t k g : worker_at i t k g -> map_ok (snd g) ->
    exists t' k' g', moves v c (ty i) t k g = Ok (t', k', g') /\ worker_at i t' k' g' /\ map_ok (snd g') /\
      keeps_others (writes (programs i)) k k' /\ (~ parsing t -> g' = g).
  Proof.
    intros (fin & rest & HP & HS & HCov & HCall) Hm. unfold moves. destruct (k_call t) as [[p x]|] eqn:EC.
    - destruct HCall as (r & j & -> & HT & HRh & HG & HO & HFine).
      assert (~ ~ parsing t) as HNP by (intros H; apply H; left; congruence).
      assert (forall p' g', thread_step p g = (p', g') ->
        worker_at i (mk_worker (k_vars t) (k_writers t) (k_readers t) (k_seen t) (Some (p', x)) (k_todo t)) k g') as HN.
      { intros p' g' E. exists fin, (x :: r). cbn [k_seen k_call k_todo k_vars k_writers k_readers]. do 3 (split; [assumption|]).
        exists r, j. split; [reflexivity|]. split; [exact HT|]. split; [exact HRh|]. split; [exact (Hstep _ _ _ _ _ HG Hm E)|]. split; assumption. }
      destruct p as [o s|b q|n q|cd q].
      + apply Hdone in HG; [|exact Hm]. subst o. destruct (concludes x (alone v g0 j) (k_vars t)) as [o' m]. cbn [fst snd] in HO, HFine. subst o'.
        rewrite noted_reported. cbn [obind]. eexists. eexists. eexists. split; [reflexivity|].
        split; [|split; [exact Hm|split; [apply keeps_refl|tauto]]]. exists (fin ++ [x]), r. cbn [k_seen k_call k_todo k_vars k_writers k_readers].
        split; [rewrite <- app_assoc; exact HP|]. split; [rewrite obs_snoc, HS; reflexivity|]. split; [rewrite after_snoc; apply HCov|]. auto.
      + destruct (thread_step (Fill b q) g) as [p' g'] eqn:E. exists (mk_worker (k_vars t) (k_writers t) (k_readers t) (k_seen t) (Some (p', x)) (k_todo t)), k, g'.
        split; [reflexivity|]. split; [now apply HN|]. split; [exact (map_ok_thread _ _ _ _ E Hm)|]. split; [apply keeps_refl|tauto].
      + destruct (thread_step (Take n q) g) as [p' g'] eqn:E. exists (mk_worker (k_vars t) (k_writers t) (k_readers t) (k_seen t) (Some (p', x)) (k_todo t)), k, g'.
        split; [reflexivity|]. split; [now apply HN|]. split; [exact (map_ok_thread _ _ _ _ E Hm)|]. split; [apply keeps_refl|tauto].
      + destruct (thread_step (Lookup cd q) g) as [p' g'] eqn:E. exists (mk_worker (k_vars t) (k_writers t) (k_readers t) (k_seen t) (Some (p', x)) (k_todo t)), k, g'.
        split; [reflexivity|]. split; [now apply HN|]. split; [exact (map_ok_thread _ _ _ _ E Hm)|]. split; [apply keeps_refl|tauto].
    - destruct HCall as (HT & kv & HAg & HF & HOw). destruct (k_todo t) as [|x r] eqn:ET.
      { exists t, k, g. split; [reflexivity|]. split; [|split; [exact Hm|split; [apply keeps_refl|auto]]]. exists fin, rest.
        rewrite EC. do 3 (split; [assumption|]). split; [congruence|]. exists kv. auto. }
      subst rest. assert (forall p, path_of x = Some p -> mentions (programs i) p) as HPath.
      { intros p Hp. exists x. split; [|exact Hp]. rewrite HP. apply in_or_app. right. now left. }
      assert (forall p, written_by x = Some p -> writes (programs i) p) as HWr.
      { intros p Hp. exists x. split; [|exact Hp]. rewrite HP. apply in_or_app. right. now left. }
      pose proof HCov as HCov'. cbn [all_covered] in HCov'. destruct HCov' as [HCx HCr].
      destruct (step_follows v c opens (ty i) x (after i fin) _ HC HMem HF HCx) as (s' & HE & HF').
      unfold machine_of. rewrite <- (prepares_frame (mentions (programs i)) v c (ty i) x (k_vars t) kv k (k_writers t) (k_readers t) g0 g HAg HPath).
      destruct (prepares v c (ty i) x (mk_machine (k_vars t) kv (k_writers t) (k_readers t) g0)) as [[j R']|] eqn:EP.
      + destruct (exec_parses v c (ty i) x (k_vars t) kv (k_writers t) (k_readers t) g0 j R' EP) as (g' & HX). rewrite HX in HE.
        injection HE as HE1 HE2. eexists. eexists. eexists. split; [reflexivity|].
        split; [|split; [exact Hm|split; [apply keeps_refl|reflexivity]]].
        exists fin, (x :: r). cbn [k_seen k_call k_todo k_vars k_writers k_readers]. do 3 (split; [assumption|]). exists r, j.
        split; [reflexivity|]. split; [reflexivity|]. split; [exact (proj1 (C74_which_calls_parse v c (ty i) x _) j R' EP)|]. split; [now apply Hstart|]. split; [exact HE1|]. rewrite after_snoc. exists kv. split; [exact HAg|].
        split; [|exact HOw]. subst s'. apply (untouched _ _ _ _ _ _ g0 HF' Hg0).
      + destruct (exec_frame (mentions (programs i)) (writes (programs i)) v c (ty i) x (k_vars t) kv k (k_writers t) (k_readers t) g0 g HAg HPath HWr HOw EP)
          as (o & m' & k1' & k2' & W' & R' & HX1 & HX2 & B1 & B2 & B3).
        rewrite HX1 in HE. injection HE as HE1 HE2. rewrite HX2, HE1, noted_reported. cbn [obind m_vars m_disk m_writers m_readers m_globals].
        eexists. eexists. eexists. split; [reflexivity|]. split; [|split; [exact Hm|split; [exact B3|reflexivity]]].
        exists (fin ++ [x]), r. cbn [k_seen k_call k_todo k_vars k_writers k_readers].
        split; [rewrite <- app_assoc; exact HP|]. split; [rewrite obs_snoc, HS; reflexivity|]. split; [rewrite after_snoc; exact HCr|].
        split; [reflexivity|]. rewrite after_snoc. exists k1'. split; [exact B1|]. split; [|exact B2]. subst s'. exact HF'.
  Qed.
  Lemma set_worker_same w i t : set_worker w i t i = t.
  Proof. unfold set_worker. now rewrite Nat.eqb_refl. Qed.
  Lemma set_worker_other w i t j : j <> i -> set_worker w i t j = w j.
  Proof. unfold set_worker. intros H. apply Nat.eqb_neq in H. now rewrite H. Qed.
  Lemma others_stay i j w k g k' g' : worker_at j (w j) k g -> j <> i -> may w i -> keeps_others (writes (programs i)) k k' ->
    (~ parsing (w i) -> g' = g) -> worker_at j (w j) k' g'.
  Proof.
    intros (fin & rest & HP & HS & HCov & HCall) Hj HM [K1 K2] HG. exists fin, rest. do 3 (split; [assumption|]).
    assert (forall p, mentions (programs j) p -> file_at k' p = file_at k p) as HK.
    { intros p Hp. apply K2. intros Hq. apply Hj. symmetry. exact (Hown _ _ _ Hq Hp). }
    destruct (k_call (w j)) as [[p x]|] eqn:EC.
    - destruct HCall as (r & jb & H1 & H2 & H6 & H3 & H4 & H5). exists r, jb. split; [exact H1|]. split; [exact H2|]. split; [exact H6|]. split.
      + assert (parsing (w i) \/ ~ parsing (w i)) as [HPi|HPi].
        { unfold parsing. destruct (k_call (w i)); [left; left; discriminate|]. destruct (k_todo (w i)) as [|y l]; [right; intros [H|H]; auto|].
          destruct (reads_header y); [left; now right|]. right. intros [H|H]; [now apply H|discriminate]. }
        * exact (Hkeep w i j p x _ g g' HM HPi Hj EC H3).
        * now rewrite (HG HPi).
      + split; [exact H4|]. now apply fine_elsewhere with k.
    - destruct HCall as [H1 H2]. split; [exact H1|]. now apply fine_elsewhere with k.
  Qed.
  Lemma run_at sched : forall w k g, map_ok (snd g) -> (forall i, worker_at i (w i) k g) -> arranged may v c ty sched w k g ->
    exists w' k' g', run_workers v c ty sched w k g = Ok (w', k', g') /\ map_ok (snd g') /\ (forall i, worker_at i (w' i) k' g') /\
      keeps_others (fun p => exists i, writes (programs i) p) k k'.
  Proof.
    induction sched as [|i r IH]; intros w k g Hm HW HS; cbn [run_workers arranged] in *.
    { exists w, k, g. do 3 (split; [auto|]). apply keeps_refl. }
    destruct HS as [HI HS]. destruct (move_at i (w i) k g (HW i) Hm) as (t' & k' & g' & E & HT & Hm' & HK & HG). rewrite E in *.
    cbn [obind]. destruct (IH (set_worker w i t') k' g' Hm') as (w2 & k2 & g2 & E2 & Hm2 & HW2 & HK2); [|exact HS|].
    - intros j. destruct (Nat.eq_dec j i) as [->|Hj]; [now rewrite set_worker_same|].
      rewrite set_worker_other by exact Hj. now apply others_stay with i k g.
    - exists w2, k2, g2. do 3 (split; [assumption|]). eapply keeps_trans; [|exact HK2]. destruct HK as [K1 K2]. split; [exact K1|].
      intros p Hp. apply K2. intros Hq. apply Hp. now exists i.
  Qed.
  Lemma start_at i m : all_covered (mem v) (host_big v) opens (ty i) (programs i) w0 ->
    follows v c opens (ty i) w0 (mk_machine m k0 (fun _ => None) (fun _ => None) g0) ->
    worker_at i (mk_worker m (fun _ => None) (fun _ => None) [] None (programs i)) k0 g0.
  Proof.
    intros HA HF. exists [], (programs i). split; [reflexivity|]. split; [reflexivity|]. split; [exact HA|]. split; [reflexivity|].
    exists k0. split; [split; reflexivity|]. split; [exact HF|intros h fw H; discriminate H].
  Qed.
  Lemma worker_seen i t k g : worker_at i t k g ->
    k_seen t = firstn (length (k_seen t)) (obs i (programs i)) /\
    (length (k_seen t) + (match k_call t with None => 0 | Some _ => 1 end) + length (k_todo t) = length (programs i))%nat.
  Proof.
    assert (forall l w, length (fst (ideally (mem v) opens (ty i) l w)) = length l) as HL.
    { induction l as [|x l IH]; intros w; cbn [ideally]; [reflexivity|]. destruct (ideal (mem v) opens (ty i) x w) as [o w1].
      specialize (IH w1). destruct (ideally _ _ _ l w1). cbn [fst length] in *. now rewrite IH. }
    intros (fin & rest & HP & HS & _ & HCall). split.
    - rewrite HS. rewrite HP. unfold obs. rewrite ideally_app. destruct (ideally (mem v) opens (ty i) fin w0) as [o1 w1].
      destruct (ideally (mem v) opens (ty i) rest w1) as [o2 w2]. cbn [fst]. rewrite firstn_app, Nat.sub_diag, firstn_all, firstn_O. now rewrite app_nil_r.
    - rewrite HS, HP, app_length. unfold obs. rewrite HL. destruct (k_call t) as [[p x]|].
      + destruct HCall as (r & j & -> & -> & _). cbn [length]. lia.
      + destruct HCall as [-> _]. lia.
  Qed.
  (** What the files then hold. *)
  Lemma ideal_reads i x w : reads_header x = true -> files (snd (ideal (mem v) opens (ty i) x w)) = files w.
  Proof.
    destruct x as [a|n index|n|n e p|n p|p|h d p m e|h name n|h|h|r p|n r name|r name|r name|r]; try discriminate; intros _; cbn [ideal].
    - destruct (files w p) as [[y|y|]|]; try reflexivity. destruct (received _ _ y); reflexivity.
    - destruct (files w p) as [[y|y|]|]; reflexivity.
    - destruct (snapshots w r) as [[q items]|]; [|reflexivity]. destruct (resolve items name) as [y|]; [|reflexivity]. destruct (received _ _ y); reflexivity.
    - destruct (snapshots w r) as [[q items]|]; [|reflexivity]. destruct (resolve items name) as [y|]; reflexivity.
  Qed.
  Lemma worker_files i t k g p : worker_at i t k g -> mentions (programs i) p ->
    sim_file (files (after i (firstn (length (k_seen t)) (programs i))) p) (file_at k p).
  Proof.
    assert (forall l w, length (fst (ideally (mem v) opens (ty i) l w)) = length l) as HL.
    { induction l as [|x l IH]; intros w; cbn [ideally]; [reflexivity|]. destruct (ideal (mem v) opens (ty i) x w) as [o w1].
      specialize (IH w1). destruct (ideally _ _ _ l w1). cbn [fst length] in *. now rewrite IH. }
    intros (fin & rest & HP & HS & _ & HCall) Hp.
    assert (firstn (length (k_seen t)) (programs i) = fin) as ->.
    { rewrite HS. unfold obs. rewrite HL, HP, firstn_app, Nat.sub_diag, firstn_all, firstn_O. apply app_nil_r. }
    assert (exists m W R, fine i (mk_world (vars (after i fin)) (files (after i fin)) (archivers (after i fin)) (snapshots (after i fin))) m k W R \/
       exists w, files w = files (after i fin) /\ fine i w m k W R) as (m & W & R & HX).
    { destruct (k_call t) as [[q x]|].
      - destruct HCall as (r & j & _ & _ & HR & _ & _ & HF). do 3 eexists. right. eexists. split; [|exact HF]. rewrite after_snoc. now apply ideal_reads.
      - destruct HCall as [_ HF]. do 3 eexists. right. eexists. split; [|exact HF]. reflexivity. }
    assert (exists w, files w = files (after i fin) /\ fine i w m k W R) as (w & <- & kv & [_ HA] & (_ & (_ & HFi) & _) & _).
    { destruct HX as [HX|HX]; [|exact HX]. eexists. split; [|exact HX]. reflexivity. }
    rewrite <- HA by exact Hp. apply HFi.
  Qed.
  (** Every thread can finish: run one after the other. *)
  Hypothesis Hmay : forall w i, (forall j, j <> i -> k_call (w j) = None) -> may w i.
  Lemma one_move i w k g : map_ok (snd g) -> (forall i, worker_at i (w i) k g) -> (forall j, j <> i -> k_call (w j) = None) ->
    exists t' k' g', moves v c (ty i) (w i) k g = Ok (t', k', g') /\ map_ok (snd g') /\ forall j, worker_at j (set_worker w i t' j) k' g'.
  Proof.
    intros Hm HW HO. destruct (move_at i (w i) k g (HW i) Hm) as (t' & k' & g' & E & HT & Hm' & HK & HG).
    exists t', k', g'. split; [exact E|]. split; [exact Hm'|]. intros j. destruct (Nat.eq_dec j i) as [->|Hj]; [now rewrite set_worker_same|].
    rewrite set_worker_other by exact Hj. apply others_stay with i k g; auto.
  Qed.
  Definition reaches (w : workers) k g (w' : workers) k' g' : Prop := exists sched,
    arranged may v c ty sched w k g /\ run_workers v c ty sched w k g = Ok (w', k', g').
  Lemma reaches_refl w k g : reaches w k g w k g. Proof. exists []. split; [exact I|reflexivity]. Qed.
  Lemma reaches_step i w k g t k1 g1 w' k' g' : may w i -> moves v c (ty i) (w i) k g = Ok (t, k1, g1) ->
    reaches (set_worker w i t) k1 g1 w' k' g' -> reaches w k g w' k' g'.
  Proof.
    intros HM E (s & H1 & H2). exists (i :: s). cbn [arranged run_workers]. rewrite E. cbn [obind]. auto.
  Qed.
  Lemma reaches_trans w k g w1 k1 g1 w2 k2 g2 : reaches w k g w1 k1 g1 -> reaches w1 k1 g1 w2 k2 g2 -> reaches w k g w2 k2 g2.
  Proof.
    intros (s1 & A1 & B1) (s2 & A2 & B2). exists (s1 ++ s2). revert w k g A1 B1. induction s1 as [|i s1 IH]; intros w k g A1 B1; cbn [app arranged run_workers] in *.
    - injection B1 as <- <- <-. auto.
    - destruct A1 as [AM A1]. destruct (moves v c (ty i) (w i) k g) as [[[t ka] ga]|?| |?]; cbn [obind] in *; try discriminate.
      destruct (IH _ _ _ A1 B1). auto.
  Qed.
  Definition quiet (w : workers) (i : nat) : Prop := forall j, j <> i -> k_call (w j) = None.
  Lemma quiet_set w i t : quiet w i -> quiet (set_worker w i t) i.
  Proof. intros H j Hj. rewrite set_worker_other by exact Hj. now apply H. Qed.
  Lemma finish_proc i p : forall w k g x, k_call (w i) = Some (p, x) -> quiet w i -> map_ok (snd g) -> (forall i, worker_at i (w i) k g) ->
    exists w' k' g', reaches w k g w' k' g' /\ map_ok (snd g') /\ (forall i, worker_at i (w' i) k' g') /\
      k_call (w' i) = None /\ k_todo (w' i) = k_todo (w i) /\ forall j, j <> i -> w' j = w j.
  Proof.
    induction p as [o s|b q IH|n q IH|cd q IH]; intros w k g x EC HQ Hm HW; destruct (one_move i w k g Hm HW HQ) as (t' & k1 & g1 & E & Hm1 & HW1);
      pose proof E as E'; unfold moves in E'; rewrite EC in E'.
    - destruct (concludes x o (k_vars (w i))) as [o' m]. destruct (noted o') as [y|?| |?]; cbn [obind] in E'; try discriminate. injection E' as <- <- <-.
      eexists. eexists. eexists. split; [eapply reaches_step; [exact (Hmay w i HQ)|exact E|apply reaches_refl]|]. split; [exact Hm1|]. split; [exact HW1|].
      rewrite !set_worker_same. cbn [k_call k_todo]. split; [reflexivity|]. split; [reflexivity|]. intros j Hj. now apply set_worker_other.
    - cbn [thread_step] in E'. injection E' as <- <- <-.
      pose proof (fun H => IH _ _ _ x H (quiet_set _ _ _ HQ) Hm1 HW1) as HI. rewrite set_worker_same in HI. destruct (HI eq_refl) as (w' & k' & g' & H1 & H2 & H3 & H4 & H5 & H6).
      exists w', k', g'. split; [eapply reaches_step; [exact (Hmay w i HQ)|exact E|exact H1]|]. split; [exact H2|]. split; [exact H3|]. split; [exact H4|].
      split; [rewrite H5; reflexivity|]. intros j Hj. rewrite H6 by exact Hj. now apply set_worker_other.
    - cbn [thread_step] in E'. injection E' as <- <- <-.
      pose proof (fun H => IH (ztake n (fst g)) _ _ _ x H (quiet_set _ _ _ HQ) Hm1 HW1) as HI. rewrite set_worker_same in HI. destruct (HI eq_refl) as (w' & k' & g' & H1 & H2 & H3 & H4 & H5 & H6).
      exists w', k', g'. split; [eapply reaches_step; [exact (Hmay w i HQ)|exact E|exact H1]|]. split; [exact H2|]. split; [exact H3|]. split; [exact H4|].
      split; [rewrite H5; reflexivity|]. intros j Hj. rewrite H6 by exact Hj. now apply set_worker_other.
    - cbn [thread_step] in E'. destruct (from_dtype cd (snd g)) as [de m]. injection E' as <- <- <-.
      pose proof (fun H => IH de _ _ _ x H (quiet_set _ _ _ HQ) Hm1 HW1) as HI. rewrite set_worker_same in HI. destruct (HI eq_refl) as (w' & k' & g' & H1 & H2 & H3 & H4 & H5 & H6).
      exists w', k', g'. split; [eapply reaches_step; [exact (Hmay w i HQ)|exact E|exact H1]|]. split; [exact H2|]. split; [exact H3|]. split; [exact H4|].
      split; [rewrite H5; reflexivity|]. intros j Hj. rewrite H6 by exact Hj. now apply set_worker_other.
  Qed.
  Lemma finish_worker i l : forall w k g, k_todo (w i) = l -> (forall j, k_call (w j) = None) -> map_ok (snd g) -> (forall i, worker_at i (w i) k g) ->
    exists w' k' g', reaches w k g w' k' g' /\ map_ok (snd g') /\ (forall i, worker_at i (w' i) k' g') /\
      (forall j, k_call (w' j) = None) /\ k_todo (w' i) = [] /\ forall j, j <> i -> w' j = w j.
  Proof.
    induction l as [|x l IH]; intros w k g ET HQ Hm HW.
    - exists w, k, g. split; [apply reaches_refl|]. auto 10.
    - assert (quiet w i) as HQi by (intros j _; apply HQ). destruct (one_move i w k g Hm HW HQi) as (t' & k1 & g1 & E & Hm1 & HW1).
      pose proof E as E'. unfold moves in E'. rewrite (HQ i), ET in E'.
      assert (k_todo t' = l /\ (k_call t' = None \/ exists p, k_call t' = Some (p, x))) as [HT HCt].
      { destruct (prepares v c (ty i) x (machine_of (w i) k g)) as [[j R']|].
        - injection E' as <- <- <-. cbn [k_todo k_call]. eauto.
        - destruct (exec v c (ty i) x (machine_of (w i) k g)) as [o s]. destruct (noted o) as [y|?| |?]; cbn [obind] in E'; try discriminate.
          injection E' as <- <- <-. auto. }
      assert (exists w2 k2 g2, reaches (set_worker w i t') k1 g1 w2 k2 g2 /\ map_ok (snd g2) /\ (forall i, worker_at i (w2 i) k2 g2) /\
        k_call (w2 i) = None /\ k_todo (w2 i) = l /\ forall j, j <> i -> w2 j = w j) as (w2 & k2 & g2 & R2 & Hm2 & HW2 & HC2 & HT2 & HO2).
      { destruct HCt as [HCt|(p & HCt)].
        - exists (set_worker w i t'), k1, g1. split; [apply reaches_refl|]. rewrite set_worker_same. do 4 (split; [assumption|]).
          intros j Hj. now apply set_worker_other.
        - destruct (finish_proc i p (set_worker w i t') k1 g1 x) as (w2 & k2 & g2 & A1 & A2 & A3 & A4 & A5 & A6); [now rewrite set_worker_same|now apply quiet_set|exact Hm1|exact HW1|].
          rewrite set_worker_same in A5. exists w2, k2, g2. do 4 (split; [assumption|]). split; [congruence|]. intros j Hj. rewrite A6 by exact Hj. now apply set_worker_other. }
      assert (forall j, k_call (w2 j) = None) as HQ2.
      { intros j. destruct (Nat.eq_dec j i) as [->|Hj]; [exact HC2|]. rewrite HO2 by exact Hj. apply HQ. }
      destruct (IH w2 k2 g2 HT2 HQ2 Hm2 HW2) as (w3 & k3 & g3 & R3 & A1 & A2 & A3 & A4 & A5). exists w3, k3, g3.
      split; [eapply reaches_step; [exact (Hmay w i HQi)|exact E|]; eapply reaches_trans; eassumption|]. do 4 (split; [assumption|]).
      intros j Hj. rewrite A5 by exact Hj. now apply HO2.
  Qed.
  Lemma finish_all W n : (forall i, worker_at i (W i) k0 g0) -> (forall i, k_call (W i) = None) ->
    exists w' k' g', reaches W k0 g0 w' k' g' /\ map_ok (snd g') /\ (forall i, worker_at i (w' i) k' g') /\
      (forall j, k_call (w' j) = None) /\ forall i, (i < n)%nat -> k_todo (w' i) = [].
  Proof.
    intros HA HN. induction n as [|n (w & k & g & R1 & Hm & HW & HQ & HT)].
    - exists W, k0, g0. split; [apply reaches_refl|]. split; [now apply prior_map_ok|]. split; [exact HA|].
      split; [exact HN|]. intros i Hi. lia.
    - destruct (finish_worker n _ w k g eq_refl HQ Hm HW) as (w' & k' & g' & R2 & A1 & A2 & A3 & A4 & A5). exists w', k', g'.
      split; [eapply reaches_trans; eassumption|]. do 3 (split; [assumption|]). intros i Hi. destruct (Nat.eq_dec i n) as [->|Hn]; [exact A4|].
      rewrite A5 by exact Hn. apply HT. lia.
  Qed.
End Threads.
Lemma begun_followed v c ty k0 g0 F : (forall p, sim_file (F p) (file_at k0 p)) -> prior_parses g0 ->
  follows v c (can_write k0) ty (begun F) (mk_machine (fun n => mk_tensor [] [] false (ty n) []) k0 (fun _ => None) (fun _ => None) g0).
Proof.
  intros HF0 Hg0. unfold follows, begun. cbn [vars files archivers snapshots m_vars m_disk m_writers m_readers m_globals].
  split; [intros n; exists false; reflexivity|]. split; [|split; [|split; [intros n; exact I|exact Hg0]]].
  - split; [reflexivity|exact HF0].
  - split; [reflexivity|]. intros. discriminate.
Qed.
Lemma idle_at v c ty k0 g0 programs F good : (forall p, sim_file (F p) (file_at k0 p)) -> prior_parses g0 ->
  forall i, all_covered (mem v) (host_big v) (can_write k0) (ty i) (programs i) (begun F) ->
  worker_at v c ty k0 g0 programs (begun F) good i (idle ty programs i) k0 g0.
Proof. intros HF0 Hg0 i HA. apply start_at; [exact HA|]. now apply begun_followed. Qed.

(** ** The property *)
Definition starting_globals : globals := (zrepeat 0 65536, DTYPE_MAP).
(** Each thread has seen what its program, run alone in the ideal world, sees up to there. *)
Definition undisturbed (v : env) (ty : nat -> typing) (k : disk) (F : knowledge) (programs : nat -> list step) (w : workers) : Prop :=
  forall i, k_seen (w i) = firstn (length (k_seen (w i))) (fst (ideally (mem v) (can_write k) (ty i) (programs i) (begun F))) /\
    (length (k_seen (w i)) + (match k_call (w i) with None => 0 | Some _ => 1 end) + length (k_todo (w i)) = length (programs i))%nat.
(** What the files should hold by then: a file that some thread writes, what that thread's
    program, up to where it has come, leaves in it in the ideal world; any other, what it held. *)
Definition remains (v : env) (ty : nat -> typing) (k : disk) (F : knowledge) (programs : nat -> list step) (w : workers) (F' : knowledge) : Prop :=
  forall p, ((forall i, ~ writes (programs i) p) /\ F' p = F p) \/
    exists i, writes (programs i) p /\
      F' p = files (snd (ideally (mem v) (can_write k) (ty i) (firstn (length (k_seen (w i))) (programs i)) (begun F))) p.
(** The process may end there (its threads killed wherever they are): later runs of programs
    find these files. *)
Definition reusable (v : env) (ty : nat -> typing) (k : disk) (F : knowledge) (programs : nat -> list step) (w : workers) (k' : disk) : Prop :=
  forall F' sessions, remains v ty k F programs w F' -> sessions_covered sessions F' ->
    exists k'', run_sessions sessions (file_at k') = Ok (ideal_sessions sessions F', k'').

(** A lock around the calls that parse headers is enough, in every build. *)
Theorem C74_a_lock_around_header_parsing : forall v c ty k F programs sched,
  libnpy_codec v c -> 2 ^ 32 <= mem v -> (forall p, holds (F p) (file_at k p)) ->
  (forall i j p, writes (programs i) p -> mentions (programs j) p -> i = j) ->
  (forall i, all_covered (mem v) (host_big v) (can_write k) (ty i) (programs i) (begun F)) ->
  arranged header_lock v c ty sched (idle ty programs) k starting_globals ->
  exists w' k' g', run_workers v c ty sched (idle ty programs) k starting_globals = Ok (w', k', g') /\
    undisturbed v ty k F programs w' /\ reusable v ty k F programs w' k'.
Proof.
  intros v c ty k F programs sched HC HM HF HO HA HS. assert (prior_parses starting_globals) as Hg by constructor.
  pose proof (prior_map_ok _ Hg) as Hm. pose proof (fun p => holds_sim _ _ (HF p)) as HF0.
  destruct (run_at v c ty k starting_globals programs (begun F) HC HM Hg HO (fun p o g => fst (fst (solo p g)) = o) header_lock) with sched (idle ty programs) k starting_globals
    as (w' & k' & g' & E & _ & HW & HK); auto.
  - intros j g1 H1. rewrite job_solo. now apply alone_indep.
  - intros p o g1 p' g2 HD _ HT. now rewrite (solo_step _ _ _ _ HT).
  - intros w i j p x o g1 g2 HL HP Hj HCall. specialize (HL HP j Hj). congruence.
  - intros i. now apply idle_at.
  - exists w', k', g'. split; [exact E|]. split; [intros i; exact (worker_seen _ _ _ _ _ _ _ _ i _ _ _ (HW i))|].
    intros F' sessions HR HSe. apply sessions_follow; [|exact HSe]. intros p. destruct (HR p) as [[HN ->]|(i & HI & ->)].
    + rewrite (proj2 HK) by (intros [i Hi]; exact (HN i Hi)). apply HF0.
    + exact (worker_files _ _ _ _ _ _ _ _ i _ _ _ p (HW i) (writes_mentions _ _ HI)).
Qed.
Print Assumptions C74_a_lock_around_header_parsing.
(** With assertions compiled out, even less is. *)
Theorem C74_whole_tokens : forall v c ty k F programs sched,
  dbg v = false -> libnpy_codec v c -> 2 ^ 32 <= mem v -> (forall p, holds (F p) (file_at k p)) ->
  (forall i j p, writes (programs i) p -> mentions (programs j) p -> i = j) ->
  (forall i, all_covered (mem v) (host_big v) (can_write k) (ty i) (programs i) (begun F)) ->
  arranged tokens_whole v c ty sched (idle ty programs) k starting_globals ->
  exists w' k' g', run_workers v c ty sched (idle ty programs) k starting_globals = Ok (w', k', g') /\
    undisturbed v ty k F programs w' /\ reusable v ty k F programs w' k'.
Proof.
  intros v c ty k F programs sched Hv HC HM HF HO HA HS. assert (prior_parses starting_globals) as Hg by constructor.
  pose proof (prior_map_ok _ Hg) as Hm. pose proof (fun p => holds_sim _ _ (HF p)) as HF0.
  destruct (run_at v c ty k starting_globals programs (begun F) HC HM Hg HO (fun p o g => due p o \/ due_mid p o g) tokens_whole) with sched (idle ty programs) k starting_globals
    as (w' & k' & g' & E & _ & HW & HK); auto.
  - intros j g1 H1. left. rewrite <- (job_solo v j starting_globals). apply due_fresh; [now apply fresh_job|exact Hm].
  - intros p o g1 p' g2 HD H1 HT. now apply (due_step p o g1 p' g2).
  - intros o s o' g1 [[_ HD]|(n & q & HX & _)] H1; [|discriminate]. exact (HD g1 H1).
  - intros w i j p x o g1 g2 HL HP Hj HCall HG. apply due_keep with g1; [exact HG|]. specialize (HL HP j Hj). rewrite HCall in HL. exact HL.
  - intros i. now apply idle_at.
  - exists w', k', g'. split; [exact E|]. split; [intros i; exact (worker_seen _ _ _ _ _ _ _ _ i _ _ _ (HW i))|].
    intros F' sessions HR HSe. apply sessions_follow; [|exact HSe]. intros p. destruct (HR p) as [[HN ->]|(i & HI & ->)].
    + rewrite (proj2 HK) by (intros [i Hi]; exact (HN i Hi)). apply HF0.
    + exact (worker_files _ _ _ _ _ _ _ _ i _ _ _ p (HW i) (writes_mentions _ _ HI)).
Qed.
Print Assumptions C74_whole_tokens.

(** Such schedules exist, and let any number of the threads run to the end. *)
Theorem C74_every_program_can_finish : forall v c ty k F programs n,
  libnpy_codec v c -> 2 ^ 32 <= mem v -> (forall p, holds (F p) (file_at k p)) ->
  (forall i j p, writes (programs i) p -> mentions (programs j) p -> i = j) ->
  (forall i, all_covered (mem v) (host_big v) (can_write k) (ty i) (programs i) (begun F)) ->
  exists sched w' k' g', arranged header_lock v c ty sched (idle ty programs) k starting_globals /\
    run_workers v c ty sched (idle ty programs) k starting_globals = Ok (w', k', g') /\
    forall i, (i < n)%nat -> k_seen (w' i) = fst (ideally (mem v) (can_write k) (ty i) (programs i) (begun F)).
Proof.
  intros v c ty k F programs n HC HM HF HO HA. assert (prior_parses starting_globals) as Hg by constructor.
  pose proof (prior_map_ok _ Hg) as Hm. pose proof (fun p => holds_sim _ _ (HF p)) as HF0.
  destruct (finish_all v c ty k starting_globals programs (begun F) HC HM Hg HO (fun p o g => fst (fst (solo p g)) = o) header_lock) with (idle ty programs) n
    as (w' & k' & g' & (sched & HS & HR) & _ & HW & HQ & HT); auto.
  - intros j g1 H1. rewrite job_solo. now apply alone_indep.
  - intros p o g1 p' g2 HD _ HT. now rewrite (solo_step _ _ _ _ HT).
  - intros w i j p x o g1 g2 HL HP Hj HCall. specialize (HL HP j Hj). congruence.
  - intros w i H _. exact H.
  - intros i. now apply idle_at.
  - exists sched, w', k', g'. split; [exact HS|]. split; [exact HR|]. intros i Hi.
    destruct (C74_a_lock_around_header_parsing v c ty k F programs sched HC HM HF HO HA HS) as (w2 & k2 & g2 & E & HU & _). rewrite HR in E. injection E as <- <- <-.
    destruct (HU i) as [H1 H2]. rewrite (HT i Hi), (HQ i) in H2. cbn [length] in H2. rewrite H1.
    assert (forall l w, length (fst (ideally (mem v) (can_write k) (ty i) l w)) = length l) as HL.
    { induction l as [|x l IH]; intros w; cbn [ideally]; [reflexivity|]. destruct (ideal (mem v) (can_write k) (ty i) x w) as [o w1].
      specialize (IH w1). destruct (ideally _ _ _ l w1). cbn [fst length] in *. now rewrite IH. }
    apply firstn_all2. rewrite HL. lia.
Qed.
Print Assumptions C74_every_program_can_finish.

(** A case: thread 1 fills and saves its array, and writes an archive, while thread 0 is in
    the middle of parsing a header; both read one file from before. *)
Definition case_types2 : nat -> typing := fun _ n => if (n =? 9)%nat then UNICODE_STRING else INT16.
Definition case_shared : disk := mk_disk (fun p => if beq p (str "n.npy") then Some case_file else None) (fun p => negb (beq p (str "n.npy"))).
Definition case_knows : knowledge := fun p => if beq p (str "n.npy") then Some (Holds case_strings) else None.
Definition case_programs (i : nat) : list step :=
  match i with
  | O => [SVar (AMake 0 [2; 2] true); SVar (AFill 0 (map Scalar [1; 2; 3; 4])); SSave 0 BIG (str "a.npy");
          SLoad 1 (str "a.npy"); SGet 1 [1; 0]; SLoad 2 (str "missing.npy"); SLoad 9 (str "n.npy"); SGet 9 [0; 0]]
  | 1%nat => [SVar (AMake 0 [3] true); SVar (AFill 0 (map Scalar [7; 8; 9])); SSave 0 LITTLE (str "b.npy");
          SNew 0 (case_device (2 ^ 40)) (str "c.npz") STORED LITTLE; SWrite 0 (str "x") 0; SEnd 0; SOpen 0 (str "c.npz");
          SRead 1 0 (str "x"); SList 1; SGet 1 [3]; SPeek (str "n.npy"); SLoad 3 (str "n.npy"); SLoad 4 (str "missing.npy")]
  | _ => []
  end.
Definition case_schedule : list nat :=
  ([0; 1; 0; 0; 0; 0; 0; 1; 1; 0; 1; 1; 1; 0; 1] ++ List.repeat 0 200 ++ List.repeat 1 200 ++ [0; 0])%nat.
(** What the files hold if all is killed after 13 moves, and a run of another program then. *)
Definition case_left : knowledge := fun p =>
  if beq p (str "a.npy") then files (snd (ideally (mem case_env) (can_write case_shared) (case_types2 0) (firstn 3 (case_programs 0)) (begun case_knows))) p
  else if beq p (str "b.npy") || beq p (str "c.npz") then
    files (snd (ideally (mem case_env) (can_write case_shared) (case_types2 1) (firstn 6 (case_programs 1)) (begun case_knows))) p
  else case_knows p.
Definition case_later : list session :=
  [mk_session release (codec_on release) (case_types2 0) (fun _ => true)
     [SLoad 0 (str "a.npy"); SGet 0 [1; 0]; SOpen 0 (str "c.npz"); SRead 0 0 (str "x"); SList 0; SLoad 0 (str "b.npy"); SLoad 9 (str "n.npy"); SLoad 9 (str "missing.npy")] []].
(** Deciding [arranged header_lock] for threads below [n]. *)
Definition busy (t : worker) : bool := match k_call t with Some _ => true | None => false end.
Definition parsing_b (t : worker) : bool := busy t || match k_todo t with x :: _ => reads_header x | [] => false end.
Fixpoint arranged_b (n : nat) (v : env) (c : codec) (ty : nat -> typing) (sched : list nat) (w : workers) (k : disk) (g : globals) : bool :=
  match sched with
  | [] => true
  | i :: r => (i <? n)%nat && (negb (parsing_b (w i)) || forallb (fun j => (j =? i)%nat || negb (busy (w j))) (seq 0 n)) &&
              match moves v c (ty i) (w i) k g with
              | Ok (t, k', g') => arranged_b n v c ty r (set_worker w i t) k' g'
              | _ => true
              end
  end.
Lemma arranged_b_ok n v c ty sched : forall w k g, (forall j, (n <= j)%nat -> k_call (w j) = None) ->
  arranged_b n v c ty sched w k g = true -> arranged header_lock v c ty sched w k g.
Proof.
  induction sched as [|i r IH]; intros w k g HN H; cbn [arranged arranged_b] in *; [exact I|].
  apply andb_true_iff in H as [H H2]. apply andb_true_iff in H as [H0 H1]. apply Nat.ltb_lt in H0. split.
  - intros HP j Hj. destruct (Nat.le_gt_cases n j) as [Hn|Hn]; [now apply HN|]. apply orb_true_iff in H1 as [H1|H1].
    + exfalso. apply negb_true_iff in H1. unfold parsing_b, busy in H1. destruct HP as [HP|HP].
      * destruct (k_call (w i)); [discriminate|contradiction].
      * destruct (k_todo (w i)); [contradiction|]. rewrite HP, orb_true_r in H1. discriminate.
    + rewrite forallb_forall in H1. specialize (H1 j). rewrite in_seq in H1. specialize (H1 ltac:(lia)).
      apply orb_true_iff in H1 as [H1|H1]; [apply Nat.eqb_eq in H1; contradiction|]. apply negb_true_iff in H1. unfold busy in H1. now destruct (k_call (w j)).
  - destruct (moves v c (ty i) (w i) k g) as [[[t k'] g']|?| |?]; auto. apply IH; [|exact H2]. intros j Hj. rewrite set_worker_other by lia. now apply HN.
Qed.
Lemma case_remains w : length (k_seen (w 0%nat)) = 3%nat -> length (k_seen (w 1%nat)) = 6%nat ->
  remains case_env case_types2 case_shared case_knows case_programs w case_left.
Proof.
  intros H0 H1 p. unfold case_left.
  destruct (beq p (str "a.npy")) eqn:Ea; [|destruct (beq p (str "b.npy")) eqn:Eb; [|destruct (beq p (str "c.npz")) eqn:Ec]]; cbn [orb].
  - right. exists 0%nat. rewrite H0. split; [|reflexivity]. apply beq_eq in Ea. subst p. eexists. split; [do 2 right; left; reflexivity|reflexivity].
  - right. exists 1%nat. rewrite H1. split; [|reflexivity]. apply beq_eq in Eb. subst p. eexists. split; [do 2 right; left; reflexivity|reflexivity].
  - right. exists 1%nat. rewrite H1. split; [|reflexivity]. apply beq_eq in Ec. subst p. eexists. split; [do 3 right; left; reflexivity|reflexivity].
  - left. split; [|reflexivity]. intros i (x & HI & HW).
    destruct i as [|[|i]]; cbn [case_programs In] in HI; [..|contradiction];
      repeat (destruct HI as [<-|HI]; [cbn [written_by] in HW; try discriminate HW; injection HW as <-; rewrite beq_refl in *; discriminate|]); contradiction.
Qed.
Example C74_case :
  let c := codec_on case_env in
  libnpy_codec case_env c /\ (forall p, holds (case_knows p) (file_at case_shared p)) /\
  (forall i j p, writes (case_programs i) p -> mentions (case_programs j) p -> i = j) /\
  (forall i, all_covered (mem case_env) (host_big case_env) (can_write case_shared) (case_types2 i) (case_programs i) (begun case_knows)) /\
  arranged header_lock case_env c case_types2 case_schedule (idle case_types2 case_programs) case_shared starting_globals /\
  fst (ideally (mem case_env) (can_write case_shared) (case_types2 0) (case_programs 0) (begun case_knows)) =
    [Program.Done; Program.Done; Program.Done; Program.Done; Saw (Scalar 2); Caught InvalidArgument; Program.Done; Saw (WStr [0x41; 0x1F600])] /\
  fst (ideally (mem case_env) (can_write case_shared) (case_types2 1) (case_programs 1) (begun case_knows)) =
    [Program.Done; Program.Done; Program.Done; Program.Done; Program.Done; Program.Done; Program.Done; Program.Done;
     SawAll (map Scalar [7; 8; 9]); Caught InvalidArgument; SawHeader UNICODE_STRING true [2; 1]; Caught RuntimeError; Caught InvalidArgument] /\
  (* thread 1 moves on while thread 0 is in its call; killed there, the files are these *)
  (exists w k' g', run_workers case_env c case_types2 (firstn 13 case_schedule) (idle case_types2 case_programs) case_shared starting_globals = Ok (w, k', g') /\
    busy (w 0%nat) = true /\ remains case_env case_types2 case_shared case_knows case_programs w case_left) /\
  sessions_covered case_later case_left /\
  ideal_sessions case_later case_left =
    [[Program.Done; Saw (Scalar 2); Program.Done; Program.Done; SawAll (map Scalar [7; 8; 9]); Program.Done; Program.Done; Caught InvalidArgument]].
Proof.
  intros c.
  assert (forall v, host_big v = false -> libnpy_codec v (codec_on v)) as HCod.
  { intros v Hv. split; [exact Hv|]. split; [reflexivity|]. intros b. exists arr_empty, arr_empty, arr_empty. split; [|reflexivity].
    intros i Hi. rewrite arr_get_empty. lia. }
  split; [now apply HCod|].
  split.
  { intros p. unfold case_knows, case_shared. cbn [file_at]. destruct (beq p (str "n.npy")); [exact case_strings_file|exact I]. }
  split.
  { intros i j p (x & Hx & Px) (y & Hy & Py).
    assert (forall i x p, In x (case_programs i) -> written_by x = Some p ->
      (i = 0%nat /\ p = str "a.npy") \/ (i = 1%nat /\ (p = str "b.npy" \/ p = str "c.npz"))) as HW.
    { clear. intros i x p HI HP. destruct i as [|[|i]]; cbn [case_programs In] in HI; [left|right|contradiction]; (split; [reflexivity|]);
        repeat (destruct HI as [<-|HI]; [cbn [written_by] in HP; try discriminate HP; injection HP as <-; auto|]); contradiction. }
    assert (forall i x p, In x (case_programs i) -> path_of x = Some p ->
      (i = 0%nat /\ (p = str "a.npy" \/ p = str "missing.npy" \/ p = str "n.npy")) \/
      (i = 1%nat /\ (p = str "b.npy" \/ p = str "c.npz" \/ p = str "n.npy" \/ p = str "missing.npy"))) as HP.
    { clear. intros i x p HI HP. destruct i as [|[|i]]; cbn [case_programs In] in HI; [left|right|contradiction]; (split; [reflexivity|]);
        repeat (destruct HI as [<-|HI]; [cbn [path_of] in HP; try discriminate HP; injection HP as <-; auto|]); contradiction. }
    destruct (HW i x p Hx Px) as [[-> ->]|[-> [->| ->]]], (HP j y _ Hy Py) as [[-> [E|[E|E]]]|[-> [E|[E|[E|E]]]]]; try reflexivity; vm_compute in E; discriminate E. }
  assert (forall v opens i x l w, covered false opens (case_types2 i) x w ->
      all_covered (mem v) false opens (case_types2 i) l (snd (ideal (mem v) opens (case_types2 i) x w)) ->
      all_covered (mem v) false opens (case_types2 i) (x :: l) w) as HS by (intros v opens i x l w H1 H2; exact (conj H1 H2)).
  split.
  { intros i. change (host_big case_env) with false. destruct i as [|[|i]]; [..|exact I]; cbn [case_programs].
    - apply (HS case_env); [split; [small|vm_compute; reflexivity]|].
      apply (HS case_env); [split; [small|vm_compute; congruence]|].
      apply (HS case_env); [intros _; split; [nobody|eexists; split; [reflexivity|record]]|].
      apply (HS case_env); [is_there|].
      apply (HS case_env); [split; [small|vm_compute; congruence]|].
      apply (HS case_env); [intros z H; vm_compute in H; discriminate H|].
      apply (HS case_env); [is_there|].
      apply (HS case_env); [split; [small|vm_compute; congruence]|]. exact I.
    - apply (HS case_env); [split; [small|vm_compute; reflexivity]|].
      apply (HS case_env); [split; [small|vm_compute; congruence]|].
      apply (HS case_env); [intros _; split; [nobody|eexists; split; [reflexivity|record]]|].
      apply (HS case_env); [split; [now left|split; [vm_compute; congruence|intros w1 _; nobody]]|].
      apply (HS case_env); [eexists; split; [reflexivity|]; intros _; eexists; split; [reflexivity|];
        split; [record|]; split; [vm_compute; congruence|]; split; [vm_compute; reflexivity|]; split; [vm_compute; reflexivity|];
        intros H; vm_compute in H; discriminate H|].
      apply (HS case_env); [vm_compute; congruence|].
      apply (HS case_env); [is_there|].
      apply (HS case_env); [vm_compute; congruence|].
      apply (HS case_env); [vm_compute; congruence|].
      apply (HS case_env); [split; [small|vm_compute; congruence]|].
      apply (HS case_env); [is_there|].
      apply (HS case_env); [is_there|].
      apply (HS case_env); [intros z H; vm_compute in H; discriminate H|]. exact I. }
  split.
  { apply arranged_b_ok with 2%nat; [reflexivity|]. vm_compute. reflexivity. }
  split; [vm_compute; reflexivity|]. split; [vm_compute; reflexivity|].
  split.
  { assert (match run_workers case_env c case_types2 (firstn 13 case_schedule) (idle case_types2 case_programs) case_shared starting_globals with
      | Ok (w, _, _) => (busy (w 0%nat), length (k_seen (w 0%nat)), length (k_seen (w 1%nat))) = (true, 3%nat, 6%nat)
      | _ => False
      end) as HX by (vm_compute; reflexivity).
    destruct (run_workers case_env c case_types2 (firstn 13 case_schedule) (idle case_types2 case_programs) case_shared starting_globals) as [[[w k'] g']|?| |?]; try contradiction.
    injection HX as H1 H2 H3. exists w, k', g'. split; [reflexivity|]. split; [exact H1|]. now apply case_remains. }
  split; [|vm_compute; reflexivity].
  unfold case_later. cbn [sessions_covered s_env s_codec s_types s_opens s_program s_after].
  split; [now apply HCod|]. split; [vm_compute; congruence|]. split; [|split; [constructor|exact I]].
  apply (HS release); [is_there|].
  apply (HS release); [split; [small|vm_compute; congruence]|].
  apply (HS release); [is_there|].
  apply (HS release); [vm_compute; congruence|].
  apply (HS release); [vm_compute; congruence|].
  apply (HS release); [is_there|].
  apply (HS release); [is_there|].
  apply (HS release); [intros z H; vm_compute in H; discriminate H|]. exact I.
Qed.
