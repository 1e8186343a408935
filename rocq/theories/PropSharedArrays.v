(** Property C82: threads that share arrays. *)
From Coq Require Import String ZArith List Bool Lia.
From Verif Require Import Base Stream BaseFacts Dtype Values Spec ValuesFacts Header HeaderFacts ParseFacts ParserInv ParserRel NpyFacts Tensor Npy TensorVars Files
  Npz ZipFiles PropCompress Race PropRace Threads PropThreads Program ProgramSpec PropTensor PropDisk Arr Tinfl Tdefl PropProgram Parallel ProgServe PropForeign PropOthers Sessions SessionSpec PropSessions
  PropParallel SharedArrays.
Import ListNotations.
Open Scope Z_scope.

(** ** What a step leaves alone *)
Lemma put_other m i t n : n <> i -> put m i t n = m n.
Proof. intros H. unfold put. apply Nat.eqb_neq in H. now rewrite H. Qed.
Lemma act_keeps v d a m m' n : act v d a m = Ok m' -> ~ In n (changes (SVar a)) -> m' n = m n.
Proof.
  destruct a as [i shape f|i j|i j|i j|i j|i index x|i src]; cbn [act changes In]; intros H HN.
  - destruct (make_tensor v d shape f); cbn [obind] in H; try discriminate. injection H as <-. apply put_other. intuition.
  - injection H as <-. unfold copy_construct. apply put_other. intuition.
  - injection H as <-. unfold move_construct. rewrite !put_other by intuition. reflexivity.
  - injection H as <-. unfold copy_assign, copy_member. cbv zeta. rewrite !put_other by intuition. reflexivity.
  - injection H as <-. unfold move_assign, move_member. cbv zeta. rewrite !put_other by intuition. reflexivity.
  - destruct (t_set (m i) index x); cbn [obind] in H; try discriminate. injection H as <-. apply put_other. intuition.
  - destruct (copy_from (m i) src) as [o t]. destruct o; cbn [obind] in H; try discriminate. injection H as <-. apply put_other. intuition.
Qed.
Lemma exec_keeps v c ty x s n : ~ In n (changes x) -> m_vars (snd (exec v c ty x s)) n = m_vars s n.
Proof.
  intros HN. destruct x as [a|i index|i|i e p|i p|p|h d p me e|h name i|h|h|r p|i r name|r name|r name|r]; cbn [exec].
  - destruct (act v (ty (target a)) a (m_vars s)) as [m'|ex| |u] eqn:E; cbn [snd]; try reflexivity. exact (act_keeps _ _ _ _ _ _ E HN).
  - reflexivity.
  - reflexivity.
  - destruct (save_path _ _ _ _ _ _). reflexivity.
  - destruct (load_path _ _ _ _ _) as [o g]. destruct o; cbn [snd]; try reflexivity. apply put_other. cbn [changes In] in HN. intuition.
  - destruct (peek_path _ _ _ _). reflexivity.
  - destruct (fw_new _ _ _ _ _). reflexivity.
  - destruct (m_writers s h); [|reflexivity]. destruct (fw_write _ _ _ _ _ _) as [[o w'] k]. reflexivity.
  - destruct (m_writers s h); [|reflexivity]. destruct (fw_close _ _). reflexivity.
  - destruct (m_writers s h); reflexivity.
  - destruct (fr_open _ _); reflexivity.
  - destruct (m_readers s r); [|reflexivity]. destruct (r_read _ _ _ _ _ _) as [[o y'] g]. destruct o; cbn [snd]; try reflexivity.
    apply put_other. cbn [changes In] in HN. intuition.
  - destruct (m_readers s r); [|reflexivity]. destruct (r_peek _ _ _ _ _) as [[o y'] g]. reflexivity.
  - destruct (m_readers s r); reflexivity.
  - destruct (m_readers s r); reflexivity.
Qed.
Lemma concludes_keeps x o m n : ~ In n (changes x) -> snd (concludes x o m) n = m n.
Proof.
  intros HN. destruct o as [[h|t]|ex| |u]; try reflexivity.
  destruct x; try reflexivity; cbn [concludes snd]; apply put_other; cbn [changes In] in HN; intuition.
Qed.
Lemma moves_keeps v c ty t k g t' k' g' n : moves v c ty t k g = Ok (t', k', g') ->
  (forall p x, k_call t = Some (p, x) -> ~ In n (changes x)) -> (forall x l, k_todo t = x :: l -> ~ In n (changes x)) ->
  k_vars t' n = k_vars t n.
Proof.
  intros HM HC HT. unfold moves in HM. destruct (k_call t) as [[q x]|].
  - specialize (HC q x eq_refl). destruct q as [o s|b q|m q|cd q].
    + pose proof (concludes_keeps x o (k_vars t) n HC) as HK. destruct (concludes x o (k_vars t)) as [o' m].
      destruct (noted o'); try discriminate HM. injection HM as <- _ _. exact HK.
    + destruct (thread_step _ g). injection HM as <- _ _. reflexivity.
    + destruct (thread_step _ g). injection HM as <- _ _. reflexivity.
    + destruct (thread_step _ g). injection HM as <- _ _. reflexivity.
  - destruct (k_todo t) as [|x l]; [injection HM as <- _ _; reflexivity|]. specialize (HT x l eq_refl).
    destruct (prepares v c ty x (machine_of t k g)) as [[j rd]|]; [injection HM as <- _ _; reflexivity|].
    pose proof (exec_keeps v c ty x (machine_of t k g) n HT) as HK. destruct (exec v c ty x (machine_of t k g)) as [o s].
    destruct (noted o); try discriminate HM. injection HM as <- _ _. exact HK.
Qed.
Lemma exec_can_write v c ty x s : can_write (m_disk (snd (exec v c ty x s))) = can_write (m_disk s).
Proof.
  assert (forall w k, can_write (snd (fw_close w k)) = can_write k) as HCl.
  { intros w k. unfold fw_close. destruct (w_closed (fw_w w)); [reflexivity|]. cbv zeta. cbn [snd]. destruct (fw_open w); reflexivity. }
  assert (forall w k, can_write (fw_destroy w k) = can_write k) as HDe.
  { intros w k. unfold fw_destroy. destruct (w_closed (fw_w w)); [reflexivity|apply HCl]. }
  destruct x as [a|i index|i|i e p|i p|p|h d p me e|h name i|h|h|r p|i r name|r name|r name|r]; cbn [exec].
  - destruct (act v (ty (target a)) a (m_vars s)); reflexivity.
  - reflexivity.
  - reflexivity.
  - unfold save_path. destruct (can_write (m_disk s) p) eqn:E; [|reflexivity]. destruct (save v (m_vars s i) e); reflexivity.
  - destruct (load_path _ _ _ _ _) as [o g]. destruct o; reflexivity.
  - destruct (peek_path _ _ _ _). reflexivity.
  - unfold fw_new. destruct (m_writers s h) as [w|]; cbn [snd on_writer m_disk].
    + destruct (can_write (fw_destroy w (m_disk s)) p); [cbn [disk_put can_write]|]; apply HDe.
    + destruct (can_write (m_disk s) p); reflexivity.
  - destruct (m_writers s h) as [w|]; [|reflexivity]. unfold fw_write. destruct (w_write_on _ _ _ _ _ _); try reflexivity.
    destruct (fw_open w); reflexivity.
  - destruct (m_writers s h) as [w|]; [|reflexivity]. pose proof (HCl w (m_disk s)) as H. destruct (fw_close w (m_disk s)). exact H.
  - destruct (m_writers s h) as [w|]; [|reflexivity]. apply HDe.
  - destruct (fr_open _ _); reflexivity.
  - destruct (m_readers s r); [|reflexivity]. destruct (r_read _ _ _ _ _ _) as [[o y'] g]. destruct o; reflexivity.
  - destruct (m_readers s r); [|reflexivity]. destruct (r_peek _ _ _ _ _) as [[o y'] g]. reflexivity.
  - destruct (m_readers s r); reflexivity.
  - destruct (m_readers s r); reflexivity.
Qed.
Lemma execute_can_write v c ty l : forall s os s', execute v c ty l s = Ok (os, s') -> can_write (m_disk s') = can_write (m_disk s).
Proof.
  induction l as [|x l IH]; intros s os s' H; cbn [execute] in H; [now injection H as _ <-|].
  pose proof (exec_can_write v c ty x s) as HX. destruct (exec v c ty x s) as [o s1]. cbn [snd] in HX.
  destruct o as [y|ex| |u]; try discriminate H; (destruct (execute v c ty l s1) as [[o2 s2]|?| |?] eqn:E; try discriminate H; injection H as _ <-;
    now rewrite (IH _ _ _ E)).
Qed.

(** ** The threads *)
(** The threads as if each had a copy of the common variables. *)
Definition view (common : nat -> bool) (m : objects) (w : workers) : workers :=
  fun i => with_vars (w i) (sees common m (k_vars (w i))).

Section Sharing.
  Variables (v : env) (c : codec) (ty : nat -> typing) (common : nat -> bool) (k0 : disk) (g0 : globals) (programs : nat -> list step) (w0 : world).
  Hypothesis (HC : libnpy_codec v c) (HMem : 2 ^ 32 <= mem v) (Hg0 : prior_parses g0).
  Hypothesis Hown : forall i j p, writes (programs i) p -> mentions (programs j) p -> i = j.
  Hypothesis Hcommon : forall i x n, In x (programs i) -> In n (changes x) -> common n = false.
  Variable good : proc answer -> outcome answer -> globals -> Prop.
  Variable may : workers -> nat -> Prop.
  Hypothesis Hstart : forall j g, map_ok (snd g) -> good (job_proc v j) (alone v g0 j) g.
  Hypothesis Hstep : forall p o g p' g', good p o g -> map_ok (snd g) -> thread_step p g = (p', g') -> good p' o g'.
  Hypothesis Hdone : forall o s o' g, good (Race.Done o s) o' g -> map_ok (snd g) -> o = o'.
  Hypothesis Hkeep : forall w i j p x o g g', may w i -> parsing (w i) -> j <> i -> k_call (w j) = Some (p, x) -> good p o g -> good p o g'.
  Hypothesis Hview : forall w m i, may w i -> may (view common m w) i.

  Let at_ := worker_at v c ty k0 g0 programs w0 good.
  Lemma fine_ext i w m u k W R : (forall n, u n = m n) ->
    fine v c ty k0 g0 programs i w m k W R -> fine v c ty k0 g0 programs i w u k W R.
  Proof.
    intros E (kv & H1 & (HV & H2) & H3). exists kv. split; [exact H1|]. split; [|exact H3]. split; [|exact H2].
    cbn [m_vars] in *. intros n. specialize (HV n). rewrite E. exact HV.
  Qed.
  Lemma at_ext i t u k g : (forall n, u n = k_vars t n) -> at_ i t k g -> at_ i (with_vars t u) k g.
  Proof.
    intros E (fin & rest & H1 & H2 & H3 & H4). exists fin, rest. cbn [with_vars k_seen k_call k_todo k_vars k_writers k_readers].
    do 3 (split; [assumption|]). destruct (k_call t) as [[p x]|].
    - destruct H4 as (r & j & A1 & A2 & A3 & A4 & A5 & A6). exists r, j. do 4 (split; [assumption|]). split.
      + rewrite <- A5. destruct (alone v g0 j) as [[h|y]|ex| |z]; try reflexivity. destruct x; reflexivity.
      + eapply fine_ext; [|exact A6]. intros n. destruct (alone v g0 j) as [[h|y]|ex| |z]; cbn [concludes snd]; try apply E.
        destruct x; cbn [snd]; try apply E; unfold put; destruct (n =? i0)%nat; auto.
    - destruct H4 as [A1 A2]. split; [exact A1|]. eapply fine_ext; [exact E|exact A2].
  Qed.
  Lemma at_programs i t k g : at_ i t k g ->
    (forall p x, k_call t = Some (p, x) -> In x (programs i)) /\ (forall x l, k_call t = None -> k_todo t = x :: l -> In x (programs i)).
  Proof.
    intros (fin & rest & H1 & H2 & H3 & H4). rewrite H1. split.
    - intros p x E. rewrite E in H4. destruct H4 as (r & j & -> & _). apply in_or_app. right. now left.
    - intros x l E1 E2. rewrite E1 in H4. destruct H4 as [<- _]. rewrite E2. apply in_or_app. right. now left.
  Qed.
  Lemma shared_move_at i w m k g : map_ok (snd g) -> (forall i, at_ i (view common m w i) k g) -> may w i ->
    exists t' k' g', moves v c (ty i) (view common m w i) k g = Ok (t', k', g') /\ map_ok (snd g') /\
      let m1 := sees common (k_vars t') m in
      shared_moves v c (ty i) common (w i) m k g = Ok (t', m1, k', g') /\
      (forall n, m1 n = m n) /\ (forall j, at_ j (view common m1 (set_worker w i t') j) k' g') /\ keeps_others (writes (programs i)) k k'.
  Proof.
    intros Hm HW HI.
    destruct (move_at v c ty k0 g0 programs w0 HC HMem Hg0 good Hstart Hstep Hdone i (view common m w i) k g (HW i) Hm)
      as (t' & k' & g' & E & HT & Hm' & HK & HG).
    exists t', k', g'. split; [exact E|]. split; [exact Hm'|]. cbv zeta.
    unfold shared_moves in *. change (with_vars (w i) (sees common m (k_vars (w i)))) with (view common m w i) in *. rewrite E. cbn [obind].
    split; [reflexivity|].
    set (m1 := sees common (k_vars t') m) in *.
    assert (forall n, m1 n = m n) as HM1.
    { intros n. unfold m1, sees. destruct (common n) eqn:EC; [|reflexivity].
      assert (forall x, In x (programs i) -> ~ In n (changes x)) as HX.
      { intros x H1 H2. rewrite (Hcommon i x n H1 H2) in EC. discriminate. }
      destruct (at_programs i _ k g (HW i)) as [P1 P2].
      assert (k_vars t' n = k_vars (view common m w i) n) as ->.
      { destruct (k_call (view common m w i)) as [[p x]|] eqn:ECall.
        - unfold moves in E. rewrite ECall in E. pose proof (HX x (P1 p x eq_refl)) as HN. destruct p as [o s|b q|z q|cd q].
          + pose proof (concludes_keeps x o (k_vars (view common m w i)) n HN) as HK1. destruct (concludes x o (k_vars (view common m w i))) as [o' m2].
            destruct (noted o'); try discriminate E. injection E as <- _ _. exact HK1.
          + destruct (thread_step _ g). injection E as <- _ _. reflexivity.
          + destruct (thread_step _ g). injection E as <- _ _. reflexivity.
          + destruct (thread_step _ g). injection E as <- _ _. reflexivity.
        - apply (moves_keeps _ _ _ _ _ _ _ _ _ n E); [intros p x H; congruence|]. intros x l H. apply HX. exact (P2 x l eq_refl H). }
      unfold view, with_vars. cbn [k_vars]. unfold sees. now rewrite EC. }
    split; [exact HM1|]. split; [|exact HK].
    intros j. unfold view. destruct (Nat.eq_dec j i) as [->|Hj].
    - rewrite set_worker_same. apply at_ext; [|exact HT]. intros n. unfold sees. destruct (common n) eqn:EC; [|reflexivity].
      unfold m1, sees. now rewrite EC.
    - rewrite set_worker_other by exact Hj.
      change (with_vars (w j) (sees common m1 (k_vars (w j)))) with (with_vars (view common m w j) (sees common m1 (k_vars (w j)))).
      apply at_ext; [intros n; unfold view, with_vars, sees; cbn [k_vars]; now rewrite HM1|].
      apply (others_stay v c ty k0 g0 programs w0 Hown good may Hkeep i j (view common m w) k g k' g'); auto. exact (HW j).
  Qed.
  Lemma run_shared_at sched : forall w m k g, map_ok (snd g) -> (forall i, at_ i (view common m w i) k g) ->
    arranged_shared may v c ty common sched w m k g ->
    exists w' m' k' g', run_shared v c ty common sched w m k g = Ok (w', m', k', g') /\ (forall n, m' n = m n) /\
      map_ok (snd g') /\ (forall i, at_ i (view common m' w' i) k' g') /\ keeps_others (fun p => exists i, writes (programs i) p) k k'.
  Proof.
    induction sched as [|i r IH]; intros w m k g Hm HW HS; cbn [run_shared arranged_shared] in *.
    { exists w, m, k, g. do 4 (split; [auto|]). apply keeps_refl. }
    destruct HS as [HI HS]. destruct (shared_move_at i w m k g Hm HW HI) as (t' & k' & g' & _ & Hm' & E & HM1 & HW1 & HK).
    rewrite E in *. cbn [obind]. destruct (IH (set_worker w i t') _ k' g' Hm' HW1 HS) as (w2 & m2 & k2 & g2 & E2 & HM2 & Hm2 & HW2 & HK2).
    exists w2, m2, k2, g2. split; [exact E2|]. split; [intros n; now rewrite HM2|]. do 2 (split; [assumption|]).
    eapply keeps_trans; [|exact HK2]. destruct HK as [K1 K2]. split; [exact K1|]. intros p Hp. apply K2. intros Hq. apply Hp. now exists i.
  Qed.
  (** Every thread can finish: run one after the other. *)
  Hypothesis Hmay : forall w i, (forall j, j <> i -> k_call (w j) = None) -> may w i.
  Definition gets_to (w : workers) m k g (w' : workers) m' k' g' : Prop := exists sched,
    arranged_shared may v c ty common sched w m k g /\ run_shared v c ty common sched w m k g = Ok (w', m', k', g').
  Lemma gets_refl w m k g : gets_to w m k g w m k g. Proof. exists []. split; [exact I|reflexivity]. Qed.
  Lemma gets_step i w m k g t m1 k1 g1 w' m' k' g' : may w i -> shared_moves v c (ty i) common (w i) m k g = Ok (t, m1, k1, g1) ->
    gets_to (set_worker w i t) m1 k1 g1 w' m' k' g' -> gets_to w m k g w' m' k' g'.
  Proof. intros HM E (s & H1 & H2). exists (i :: s). cbn [arranged_shared run_shared]. rewrite E. cbn [obind]. auto. Qed.
  Lemma gets_trans w m k g w1 m1 k1 g1 w2 m2 k2 g2 : gets_to w m k g w1 m1 k1 g1 -> gets_to w1 m1 k1 g1 w2 m2 k2 g2 -> gets_to w m k g w2 m2 k2 g2.
  Proof.
    intros (s1 & A1 & B1) (s2 & A2 & B2). exists (s1 ++ s2). revert w m k g A1 B1. induction s1 as [|i s1 IH]; intros w m k g A1 B1; cbn [app arranged_shared run_shared] in *.
    - injection B1 as <- <- <- <-. auto.
    - destruct A1 as [AM A1]. destruct (shared_moves v c (ty i) common (w i) m k g) as [[[[t ma] ka] ga]|?| |?]; cbn [obind] in *; try discriminate.
      destruct (IH _ _ _ _ A1 B1). auto.
  Qed.
  Let inv (w : workers) m k g : Prop := map_ok (snd g) /\ forall i, at_ i (view common m w i) k g.
  Lemma finish_call i p : forall w m k g x, k_call (w i) = Some (p, x) -> quiet w i -> inv w m k g ->
    exists w' m' k' g', gets_to w m k g w' m' k' g' /\ inv w' m' k' g' /\
      k_call (w' i) = None /\ k_todo (w' i) = k_todo (w i) /\ forall j, j <> i -> w' j = w j.
  Proof.
    induction p as [o s|b q IH|n q IH|cd q IH]; intros w m k g x EC HQ [Hm HW]; pose proof (Hmay w i HQ) as HI;
      destruct (shared_move_at i w m k g Hm HW HI) as (t' & k1 & g1 & E' & Hm1 & E & _ & HW1 & _);
      unfold moves in E'; change (k_call (view common m w i)) with (k_call (w i)) in E'; rewrite EC in E'.
    - destruct (concludes x o (k_vars (view common m w i))) as [o' m2]. destruct (noted o') as [y|?| |?]; cbn [obind] in E'; try discriminate. injection E' as <- <- <-.
      do 4 eexists. split; [eapply gets_step; [exact HI|exact E|apply gets_refl]|]. split; [split; assumption|].
      rewrite !set_worker_same. cbn [k_call k_todo]. split; [reflexivity|]. split; [reflexivity|]. intros j Hj. now apply set_worker_other.
    - cbn [thread_step] in E'. injection E' as <- <- <-.
      pose proof (fun H => IH _ _ _ _ x H (quiet_set _ _ _ HQ) (conj Hm1 HW1)) as HX. rewrite set_worker_same in HX. destruct (HX eq_refl) as (w' & m' & k' & g' & H1 & H2 & H4 & H5 & H6).
      exists w', m', k', g'. split; [eapply gets_step; [exact HI|exact E|exact H1]|]. split; [exact H2|]. split; [exact H4|].
      split; [rewrite H5; reflexivity|]. intros j Hj. rewrite H6 by exact Hj. now apply set_worker_other.
    - cbn [thread_step] in E'. injection E' as <- <- <-.
      pose proof (fun H => IH (ztake n (fst g)) _ _ _ _ x H (quiet_set _ _ _ HQ) (conj Hm1 HW1)) as HX. rewrite set_worker_same in HX. destruct (HX eq_refl) as (w' & m' & k' & g' & H1 & H2 & H4 & H5 & H6).
      exists w', m', k', g'. split; [eapply gets_step; [exact HI|exact E|exact H1]|]. split; [exact H2|]. split; [exact H4|].
      split; [rewrite H5; reflexivity|]. intros j Hj. rewrite H6 by exact Hj. now apply set_worker_other.
    - cbn [thread_step] in E'. destruct (from_dtype cd (snd g)) as [de d2]. injection E' as <- <- <-.
      pose proof (fun H => IH de _ _ _ _ x H (quiet_set _ _ _ HQ) (conj Hm1 HW1)) as HX. rewrite set_worker_same in HX. destruct (HX eq_refl) as (w' & m' & k' & g' & H1 & H2 & H4 & H5 & H6).
      exists w', m', k', g'. split; [eapply gets_step; [exact HI|exact E|exact H1]|]. split; [exact H2|]. split; [exact H4|].
      split; [rewrite H5; reflexivity|]. intros j Hj. rewrite H6 by exact Hj. now apply set_worker_other.
  Qed.
  Lemma finish_thread i l : forall w m k g, k_todo (w i) = l -> (forall j, k_call (w j) = None) -> inv w m k g ->
    exists w' m' k' g', gets_to w m k g w' m' k' g' /\ inv w' m' k' g' /\
      (forall j, k_call (w' j) = None) /\ k_todo (w' i) = [] /\ forall j, j <> i -> w' j = w j.
  Proof.
    induction l as [|x l IH]; intros w m k g ET HQ HInv.
    - exists w, m, k, g. split; [apply gets_refl|]. auto 10.
    - destruct HInv as [Hm HW]. assert (quiet w i) as HQi by (intros j _; apply HQ). pose proof (Hmay w i HQi) as HI.
      destruct (shared_move_at i w m k g Hm HW HI) as (t' & k1 & g1 & E' & Hm1 & E & _ & HW1 & _). set (m1 := sees common (k_vars t') m) in *.
      unfold moves in E'. change (k_call (view common m w i)) with (k_call (w i)) in E'. change (k_todo (view common m w i)) with (k_todo (w i)) in E'. rewrite (HQ i), ET in E'.
      assert (k_todo t' = l /\ (k_call t' = None \/ exists p, k_call t' = Some (p, x))) as [HT HCt].
      { destruct (prepares v c (ty i) x (machine_of (view common m w i) k g)) as [[j R']|].
        - injection E' as <- <- <-. cbn [k_todo k_call]. eauto.
        - destruct (exec v c (ty i) x (machine_of (view common m w i) k g)) as [o s]. destruct (noted o) as [y|?| |?]; cbn [obind] in E'; try discriminate.
          injection E' as <- <- <-. auto. }
      assert (exists w2 m2 k2 g2, gets_to (set_worker w i t') m1 k1 g1 w2 m2 k2 g2 /\ inv w2 m2 k2 g2 /\
        k_call (w2 i) = None /\ k_todo (w2 i) = l /\ forall j, j <> i -> w2 j = w j) as (w2 & m2 & k2 & g2 & R2 & HInv2 & HC2 & HT2 & HO2).
      { destruct HCt as [HCt|(p & HCt)].
        - exists (set_worker w i t'), m1, k1, g1. split; [apply gets_refl|]. split; [split; assumption|]. rewrite set_worker_same. do 2 (split; [assumption|]).
          intros j Hj. now apply set_worker_other.
        - destruct (finish_call i p (set_worker w i t') m1 k1 g1 x) as (w2 & m2 & k2 & g2 & A1 & A2 & A4 & A5 & A6); [now rewrite set_worker_same|now apply quiet_set|split; assumption|].
          rewrite set_worker_same in A5. exists w2, m2, k2, g2. do 3 (split; [assumption|]). split; [congruence|]. intros j Hj. rewrite A6 by exact Hj. now apply set_worker_other. }
      assert (forall j, k_call (w2 j) = None) as HQ2.
      { intros j. destruct (Nat.eq_dec j i) as [->|Hj]; [exact HC2|]. rewrite HO2 by exact Hj. apply HQ. }
      destruct (IH w2 m2 k2 g2 HT2 HQ2 HInv2) as (w3 & m3 & k3 & g3 & R3 & A1 & A3 & A4 & A5). exists w3, m3, k3, g3.
      split; [eapply gets_step; [exact HI|exact E|]; eapply gets_trans; eassumption|]. do 3 (split; [assumption|]).
      intros j Hj. rewrite A5 by exact Hj. now apply HO2.
  Qed.
  Lemma finish_threads W m n : inv W m k0 g0 -> (forall i, k_call (W i) = None) ->
    exists w' m' k' g', gets_to W m k0 g0 w' m' k' g' /\ (forall j, k_call (w' j) = None) /\ forall i, (i < n)%nat -> k_todo (w' i) = [].
  Proof.
    intros HA HN.
    assert (exists w' m' k' g', gets_to W m k0 g0 w' m' k' g' /\ inv w' m' k' g' /\ (forall j, k_call (w' j) = None) /\ forall i, (i < n)%nat -> k_todo (w' i) = []) as H.
    { induction n as [|n (w & m1 & k & g & R1 & HInv & HQ & HT)].
      - exists W, m, k0, g0. split; [apply gets_refl|]. split; [exact HA|]. split; [exact HN|]. intros i Hi. lia.
      - destruct (finish_thread n _ w m1 k g eq_refl HQ HInv) as (w' & m' & k' & g' & R2 & A1 & A3 & A4 & A5). exists w', m', k', g'.
        split; [eapply gets_trans; eassumption|]. do 2 (split; [assumption|]). intros i Hi. destruct (Nat.eq_dec i n) as [->|Hn]; [exact A4|].
        rewrite A5 by exact Hn. apply HT. lia. }
    destruct H as (w' & m' & k' & g' & H1 & _ & H2 & H3). exists w', m', k', g'. auto.
  Qed.
End Sharing.

(** ** The property *)
(** What the threads start with: of what the main thread left, the common arrays and the files. *)
Definition handed (common : nat -> bool) (w : world) : world :=
  mk_world (fun n => if common n then vars w n else None) (files w) (fun _ => None) (fun _ => None).
(** Each thread has seen what its program sees alone in the ideal world, up to there, when it starts from [start]. *)
Definition undisturbed_from (start : world) (v : env) (ty : nat -> typing) (k : disk) (programs : nat -> list step) (w : workers) : Prop :=
  forall i, k_seen (w i) = firstn (length (k_seen (w i))) (fst (ideally (mem v) (can_write k) (ty i) (programs i) start)) /\
    (length (k_seen (w i)) + (match k_call (w i) with None => 0 | Some _ => 1 end) + length (k_todo (w i)) = length (programs i))%nat.
(** What the files should hold by then: as C74's [remains], from [start]. *)
Definition remains_from (start : world) (v : env) (ty : nat -> typing) (k : disk) (programs : nat -> list step) (w : workers) (F' : knowledge) : Prop :=
  forall p, ((forall i, ~ writes (programs i) p) /\ F' p = files start p) \/
    exists i, writes (programs i) p /\
      F' p = files (snd (ideally (mem v) (can_write k) (ty i) (firstn (length (k_seen (w i))) (programs i)) start)) p.
(** Later runs of programs find these files. *)
Definition reusable_from (start : world) (v : env) (ty : nat -> typing) (k : disk) (programs : nat -> list step) (w : workers) (k' : disk) : Prop :=
  forall F' sessions, remains_from start v ty k programs w F' -> sessions_covered sessions F' ->
    exists k'', run_sessions sessions (file_at k') = Ok (ideal_sessions sessions F', k'').
(** The main thread runs [before]; then the threads run their programs. All use the common arrays, none changes them. *)
Definition shares (v : env) (c : codec) (ty0 : typing) (ty : nat -> typing) (common : nat -> bool) (k : disk) (F : knowledge)
    (before : list step) (programs : nat -> list step) (start : world) : Prop :=
  libnpy_codec v c /\ 2 ^ 32 <= mem v /\ (forall p, holds (F p) (file_at k p)) /\
  all_covered (mem v) (host_big v) (can_write k) ty0 before (begun F) /\
  start = handed common (snd (ideally (mem v) (can_write k) ty0 before (begun F))) /\
  (forall i n, common n = true -> ty i n = ty0 n) /\
  (forall i x n, In x (programs i) -> In n (changes x) -> common n = false) /\
  (forall i j p, writes (programs i) p -> mentions (programs j) p -> i = j) /\
  (forall i, all_covered (mem v) (host_big v) (can_write k) (ty i) (programs i) start).
Definition goes_well (safe_at : workers -> nat -> Prop) (v : env) (c : codec) (ty : nat -> typing) (common : nat -> bool) (k : disk)
    (programs : nat -> list step) (start : world) (s : machine) : Prop :=
  forall sched, arranged_shared safe_at v c ty common sched (idle ty programs) (m_vars s) (m_disk s) (m_globals s) ->
  exists w' m' k' g', run_shared v c ty common sched (idle ty programs) (m_vars s) (m_disk s) (m_globals s) = Ok (w', m', k', g') /\
    (forall n, m' n = m_vars s n) /\ undisturbed_from start v ty k programs w' /\ reusable_from start v ty k programs w' k'.

Lemma sharing_starts v c ty0 ty common k F before programs start : shares v c ty0 ty common k F before programs start ->
  exists s, execute v c ty0 before (fresh_machine ty0 k) = Ok (fst (ideally (mem v) (can_write k) ty0 before (begun F)), s) /\
    can_write (m_disk s) = can_write k /\ (forall p, sim_file (files start p) (file_at (m_disk s) p)) /\ prior_parses (m_globals s) /\
    forall good i, worker_at v c ty (m_disk s) (m_globals s) programs start good i (view common (m_vars s) (idle ty programs) i) (m_disk s) (m_globals s).
Proof.
  intros (HC & HM & HF & HB & HS0 & HTy & HCo & HO & HA).
  pose proof (fun p => holds_sim _ _ (HF p)) as HF0.
  destruct (programs_follow v c (can_write k) ty0 before HC HM (begun F) (fresh_machine ty0 k)) as (s & E & HFo).
  { exact (begun_followed v c ty0 k (zrepeat 0 65536, DTYPE_MAP) F HF0 prior_none). }
  { exact HB. }
  exists s. split; [exact E|]. pose proof (execute_can_write _ _ _ _ _ _ _ E) as HCW. cbn [fresh_machine m_disk] in HCW.
  destruct HFo as (HV & [_ HFi] & _ & _ & Hg).
  split; [exact HCW|]. split; [intros p; rewrite HS0; apply HFi|]. split; [exact Hg|].
  intros good i. unfold view, with_vars. cbn [idle k_vars k_writers k_readers k_seen k_call k_todo].
  apply start_at; [rewrite HCW; apply HA|]. rewrite HS0. unfold follows, handed.
  cbn [vars files archivers snapshots m_vars m_disk m_writers m_readers m_globals].
  split; [|split; [split; [reflexivity|exact HFi]|split; [split; [reflexivity|intros; discriminate]|split; [intros n; exact I|exact Hg]]]].
  intros n. specialize (HV n). unfold sees. destruct (common n) eqn:EC; [|exists false; reflexivity]. rewrite (HTy i n EC). exact HV.
Qed.
Lemma sharing_goes_well v c ty0 ty common k F before programs start (good : globals -> proc answer -> outcome answer -> globals -> Prop) (may : workers -> nat -> Prop) :
  shares v c ty0 ty common k F before programs start ->
  (forall g0, prior_parses g0 -> forall j g, map_ok (snd g) -> good g0 (job_proc v j) (alone v g0 j) g) ->
  (forall g0 p o g p' g', good g0 p o g -> map_ok (snd g) -> thread_step p g = (p', g') -> good g0 p' o g') ->
  (forall g0 o s o' g, good g0 (Race.Done o s) o' g -> map_ok (snd g) -> o = o') ->
  (forall g0 w i j p x o g g', may w i -> parsing (w i) -> j <> i -> k_call (w j) = Some (p, x) -> good g0 p o g -> good g0 p o g') ->
  (forall w m i, may w i -> may (view common m w) i) ->
  exists s, execute v c ty0 before (fresh_machine ty0 k) = Ok (fst (ideally (mem v) (can_write k) ty0 before (begun F)), s) /\
    goes_well may v c ty common k programs start s.
Proof.
  intros HSh G1 G2 G3 G4 G5. destruct (sharing_starts v c ty0 ty common k F before programs start HSh) as (s & E & HCW & HFi & Hg & HAt).
  destruct HSh as (HC & HM & HF & HB & HS0 & HTy & HCo & HO & HA).
  exists s. split; [exact E|]. intros sched HS.
  destruct (run_shared_at v c ty common (m_disk s) (m_globals s) programs start HC HM Hg HO HCo (good (m_globals s)) may) with sched (idle ty programs) (m_vars s) (m_disk s) (m_globals s)
    as (w' & m' & k' & g' & ER & HM' & _ & HW & HK); auto.
  - intros p o g p' g'. apply G2.
  - intros o st o' g. apply G3.
  - intros w i j p x o g g'. apply G4.
  - now apply prior_map_ok.
  - exists w', m', k', g'. split; [exact ER|]. split; [exact HM'|]. split.
    + intros i.
      pose proof (worker_seen v c ty (m_disk s) (m_globals s) programs start (good (m_globals s)) i (view common m' w' i) k' g' (HW i)) as HX.
      rewrite HCW in HX. exact HX.
    + intros F' sessions HR HSe. apply sessions_follow; [|exact HSe]. intros p. destruct (HR p) as [[HN ->]|(i & HI & ->)].
      * rewrite (proj2 HK) by (intros [i Hi]; exact (HN i Hi)). apply HFi.
      * pose proof (worker_files v c ty (m_disk s) (m_globals s) programs start (good (m_globals s)) i (view common m' w' i) k' g' p (HW i) (writes_mentions _ _ HI)) as HX.
        rewrite HCW in HX. exact HX.
Qed.

(** A lock around the calls that parse headers is enough, in every build; nothing needs to be held to use the common arrays. *)
Theorem C82_a_lock_around_header_parsing : forall v c ty0 ty common k F before programs start,
  shares v c ty0 ty common k F before programs start ->
  exists s, execute v c ty0 before (fresh_machine ty0 k) = Ok (fst (ideally (mem v) (can_write k) ty0 before (begun F)), s) /\
    goes_well header_lock v c ty common k programs start s.
Proof.
  intros v c ty0 ty common k F before programs start HS.
  apply (sharing_goes_well v c ty0 ty common k F before programs start (fun g0 p o g => fst (fst (solo p g)) = o) header_lock HS).
  - intros g0 Hg j g1 H1. rewrite job_solo. apply alone_indep; [exact H1|now apply prior_map_ok].
  - intros g0 p o g1 p' g2 HD _ HT. now rewrite (solo_step _ _ _ _ HT).
  - intros g0 o s o' g1 H _. exact H.
  - intros g0 w i j p x o g1 g2 HL HP Hj HCall. specialize (HL HP j Hj). congruence.
  - intros w m i H. exact H.
Qed.
Print Assumptions C82_a_lock_around_header_parsing.
(** In release builds whole tokens are. *)
Theorem C82_whole_tokens : forall v c ty0 ty common k F before programs start, dbg v = false ->
  shares v c ty0 ty common k F before programs start ->
  exists s, execute v c ty0 before (fresh_machine ty0 k) = Ok (fst (ideally (mem v) (can_write k) ty0 before (begun F)), s) /\
    goes_well tokens_whole v c ty common k programs start s.
Proof.
  intros v c ty0 ty common k F before programs start Hv HS.
  apply (sharing_goes_well v c ty0 ty common k F before programs start (fun _ p o g => due p o \/ due_mid p o g) tokens_whole HS).
  - intros g0 Hg j g1 H1. left. pose proof (prior_map_ok _ Hg) as Hm. rewrite <- (job_solo v j g0). apply due_fresh; [now apply fresh_job|exact Hm].
  - intros g0 p o g1 p' g2 HD H1 HT. now apply (due_step p o g1 p' g2).
  - intros g0 o s o' g1 [[_ HD]|(n & q & HX & _)] H1; [|discriminate]. exact (HD g1 H1).
  - intros g0 w i j p x o g1 g2 HL HP Hj HCall HG. apply due_keep with g1; [exact HG|]. specialize (HL HP j Hj). rewrite HCall in HL. exact HL.
  - intros w m i H. exact H.
Qed.
Print Assumptions C82_whole_tokens.

(** Such schedules exist, and they let every thread run to the end of its program. *)
Theorem C82_every_program_can_finish : forall v c ty0 ty common k F before programs start n,
  shares v c ty0 ty common k F before programs start ->
  exists s sched w' m' k' g',
    execute v c ty0 before (fresh_machine ty0 k) = Ok (fst (ideally (mem v) (can_write k) ty0 before (begun F)), s) /\
    arranged_shared header_lock v c ty common sched (idle ty programs) (m_vars s) (m_disk s) (m_globals s) /\
    run_shared v c ty common sched (idle ty programs) (m_vars s) (m_disk s) (m_globals s) = Ok (w', m', k', g') /\
    forall i, (i < n)%nat -> k_seen (w' i) = fst (ideally (mem v) (can_write k) (ty i) (programs i) start).
Proof.
  intros v c ty0 ty common k F before programs start n HSh.
  destruct (sharing_starts v c ty0 ty common k F before programs start HSh) as (s & E & HCW & HFi & Hg & HAt).
  destruct (C82_a_lock_around_header_parsing v c ty0 ty common k F before programs start HSh) as (s' & E' & HGo). rewrite E in E'. injection E' as <-.
  destruct HSh as (HC & HM & HF & HB & HS0 & HTy & HCo & HO & HA). pose proof (prior_map_ok _ Hg) as Hm.
  destruct (finish_threads v c ty common (m_disk s) (m_globals s) programs start HC HM Hg HO HCo (fun p o g => fst (fst (solo p g)) = o) header_lock)
    with (idle ty programs) (m_vars s) n as (w' & m' & k' & g' & (sched & HS & HR) & HQ & HT); auto.
  - intros j g1 H1. rewrite job_solo. now apply alone_indep.
  - intros p o g1 p' g2 HD _ HT. now rewrite (solo_step _ _ _ _ HT).
  - intros w i j p x o g1 g2 HL HP Hj HCall. specialize (HL HP j Hj). congruence.
  - intros w i H _. exact H.
  - exists s, sched, w', m', k', g'. do 3 (split; [assumption|]). intros i Hi.
    destruct (HGo sched HS) as (w2 & m2 & k2 & g2 & E2 & _ & HU & _). rewrite HR in E2. injection E2 as <- <- <- <-.
    destruct (HU i) as [H1 H2]. rewrite (HT i Hi), (HQ i) in H2. cbn [length] in H2. rewrite H1.
    assert (forall l w, length (fst (ideally (mem v) (can_write k) (ty i) l w)) = length l) as HL.
    { induction l as [|x l IH]; intros w; cbn [ideally]; [reflexivity|]. destruct (ideal (mem v) (can_write k) (ty i) x w) as [o w1].
      specialize (IH w1). destruct (ideally _ _ _ l w1). cbn [fst length] in *. now rewrite IH. }
    apply firstn_all2. rewrite HL. lia.
Qed.
Print Assumptions C82_every_program_can_finish.

(** A case: the main thread makes one array and loads another; two threads use both at once: they read elements, save the
    one (each to a file of its own, one inside an archive), copy it and change the copy, and one loads in the meantime. *)
Definition sharing_before : list step := [SVar (AMake 0 [2; 2] true); SVar (AFill 0 (map Scalar [1; 2; 3; 4])); SLoad 9 (str "n.npy")].
Definition sharing_common : nat -> bool := fun n => (n =? 0)%nat || (n =? 9)%nat.
Definition sharing_programs (i : nat) : list step :=
  match i with
  | O => [SGet 0 [1; 0]; SSave 0 BIG (str "a.npy"); SVar (ACopyMake 1 0); SVar (ASet 1 [0; 0] (Scalar 5)); SGet 1 [0; 0];
          SLoad 2 (str "a.npy"); SList 2; SGet 9 [0; 0]]
  | 1%nat => [SList 0; SNew 0 (case_device (2 ^ 40)) (str "c.npz") STORED LITTLE; SWrite 0 (str "x") 0; SEnd 0; SGet 9 [0; 0]; SGet 0 [-1; -1]]
  | _ => []
  end.
Definition sharing_start : world :=
  handed sharing_common (snd (ideally (mem case_env) (can_write case_shared) (case_types2 0) sharing_before (begun case_knows))).
Definition sharing_schedule : list nat := ([0; 1; 0; 0; 1; 1; 0; 0; 0; 0; 0; 1; 1; 0; 0; 1] ++ List.repeat 0 200 ++ [1; 1])%nat.
Fixpoint arranged_shared_b (n : nat) (v : env) (c : codec) (ty : nat -> typing) (common : nat -> bool) (sched : list nat) (w : workers) (m : objects) (k : disk) (g : globals) : bool :=
  match sched with
  | [] => true
  | i :: r => (i <? n)%nat && (negb (parsing_b (w i)) || forallb (fun j => (j =? i)%nat || negb (busy (w j))) (seq 0 n)) &&
              match shared_moves v c (ty i) common (w i) m k g with
              | Ok (t, m', k', g') => arranged_shared_b n v c ty common r (set_worker w i t) m' k' g'
              | _ => true
              end
  end.
Lemma arranged_shared_b_ok n v c ty common sched : forall w m k g, (forall j, (n <= j)%nat -> k_call (w j) = None) ->
  arranged_shared_b n v c ty common sched w m k g = true -> arranged_shared header_lock v c ty common sched w m k g.
Proof.
  induction sched as [|i r IH]; intros w m k g HN H; cbn [arranged_shared arranged_shared_b] in *; [exact I|].
  apply andb_true_iff in H as [H H2]. apply andb_true_iff in H as [H0 H1]. apply Nat.ltb_lt in H0. split.
  - intros HP j Hj. destruct (Nat.le_gt_cases n j) as [Hn|Hn]; [now apply HN|]. apply orb_true_iff in H1 as [H1|H1].
    + exfalso. apply negb_true_iff in H1. unfold parsing_b, busy in H1. destruct HP as [HP|HP].
      * destruct (k_call (w i)); [discriminate|contradiction].
      * destruct (k_todo (w i)); [contradiction|]. rewrite HP, orb_true_r in H1. discriminate.
    + rewrite forallb_forall in H1. specialize (H1 j). rewrite in_seq in H1. specialize (H1 ltac:(lia)).
      apply orb_true_iff in H1 as [H1|H1]; [apply Nat.eqb_eq in H1; contradiction|]. apply negb_true_iff in H1. unfold busy in H1. now destruct (k_call (w j)).
  - destruct (shared_moves v c (ty i) common (w i) m k g) as [[[[t m'] k'] g']|?| |?]; auto. apply IH; [|exact H2].
    intros j Hj. rewrite set_worker_other by lia. now apply HN.
Qed.
Example C82_case :
  let c := codec_on case_env in
  shares case_env c (case_types2 0) case_types2 sharing_common case_shared case_knows sharing_before sharing_programs sharing_start /\
  (exists s os, execute case_env c (case_types2 0) sharing_before (fresh_machine (case_types2 0) case_shared) = Ok (os, s) /\
    arranged_shared header_lock case_env c case_types2 sharing_common sharing_schedule (idle case_types2 sharing_programs) (m_vars s) (m_disk s) (m_globals s)) /\
  fst (ideally (mem case_env) (can_write case_shared) (case_types2 0) (sharing_programs 0) sharing_start) =
    [Saw (Scalar 2); Program.Done; Program.Done; Program.Done; Saw (Scalar 5); Program.Done; SawAll (map Scalar [1; 2; 3; 4]); Saw (WStr [0x41; 0x1F600])] /\
  fst (ideally (mem case_env) (can_write case_shared) (case_types2 1) (sharing_programs 1) sharing_start) =
    [SawAll (map Scalar [1; 2; 3; 4]); Program.Done; Program.Done; Program.Done; Saw (WStr [0x41; 0x1F600]); Saw (Scalar 4)].
Proof.
  intros c.
  assert (forall v, host_big v = false -> libnpy_codec v (codec_on v)) as HCod.
  { intros v Hv. split; [exact Hv|]. split; [reflexivity|]. intros b. exists arr_empty, arr_empty, arr_empty. split; [|reflexivity].
    intros i Hi. rewrite arr_get_empty. lia. }
  assert (forall v opens i x l w, covered false opens (case_types2 i) x w ->
      all_covered (mem v) false opens (case_types2 i) l (snd (ideal (mem v) opens (case_types2 i) x w)) ->
      all_covered (mem v) false opens (case_types2 i) (x :: l) w) as HS by (intros v opens i x l w H1 H2; exact (conj H1 H2)).
  split.
  { split; [now apply HCod|]. split; [vm_compute; congruence|].
    split; [intros p; unfold case_knows, case_shared; cbn [file_at]; destruct (beq p (str "n.npy")); [exact case_strings_file|exact I]|].
    split.
    { change (host_big case_env) with false. unfold sharing_before.
      apply (HS case_env); [split; [small|vm_compute; reflexivity]|].
      apply (HS case_env); [split; [small|vm_compute; congruence]|].
      apply (HS case_env); [is_there|]. exact I. }
    split; [reflexivity|]. split; [reflexivity|].
    split.
    { intros i x n HI HN. destruct i as [|[|i]]; cbn [sharing_programs In] in HI; [..|contradiction];
        repeat (destruct HI as [<-|HI]; [cbn [changes In] in HN; repeat (destruct HN as [<-|HN]; [reflexivity|]); contradiction|]); contradiction. }
    split.
    { intros i j p (x & Hx & Px) (y & Hy & Py).
      assert (forall i x p, In x (sharing_programs i) -> path_of x = Some p -> (i = 0%nat /\ p = str "a.npy") \/ (i = 1%nat /\ p = str "c.npz")) as HP.
      { clear. intros i x p HI HP. destruct i as [|[|i]]; cbn [sharing_programs In] in HI; [left|right|contradiction]; (split; [reflexivity|]);
          repeat (destruct HI as [<-|HI]; [cbn [path_of] in HP; try discriminate HP; injection HP as <-; auto|]); contradiction. }
      assert (path_of x = Some p) as Px' by (destruct x; try discriminate Px; exact Px).
      destruct (HP i x p Hx Px') as [[-> ->]|[-> ->]], (HP j y _ Hy Py) as [[-> E]|[-> E]]; try reflexivity; vm_compute in E; discriminate E. }
    intros i. change (host_big case_env) with false. destruct i as [|[|i]]; [..|exact I]; cbn [sharing_programs].
    - apply (HS case_env); [split; [small|vm_compute; congruence]|].
      apply (HS case_env); [intros _; split; [nobody|eexists; split; [reflexivity|record]]|].
      apply (HS case_env); [reflexivity|].
      apply (HS case_env); [split; [vm_compute; intuition congruence|split; [small|vm_compute; congruence]]|].
      apply (HS case_env); [split; [small|vm_compute; congruence]|].
      apply (HS case_env); [is_there|].
      apply (HS case_env); [vm_compute; congruence|].
      apply (HS case_env); [split; [small|vm_compute; congruence]|]. exact I.
    - apply (HS case_env); [vm_compute; congruence|].
      apply (HS case_env); [split; [now left|split; [vm_compute; congruence|intros w1 _; nobody]]|].
      apply (HS case_env); [eexists; split; [reflexivity|]; intros _; eexists; split; [reflexivity|];
        split; [record|]; split; [vm_compute; congruence|]; split; [vm_compute; reflexivity|]; split; [vm_compute; reflexivity|];
        intros H; vm_compute in H; discriminate H|].
      apply (HS case_env); [vm_compute; congruence|].
      apply (HS case_env); [split; [small|vm_compute; congruence]|].
      apply (HS case_env); [split; [small|vm_compute; congruence]|]. exact I. }
  split.
  { assert (match execute case_env c (case_types2 0) sharing_before (fresh_machine (case_types2 0) case_shared) with
      | Ok (_, s) => arranged_shared_b 2 case_env c case_types2 sharing_common sharing_schedule (idle case_types2 sharing_programs) (m_vars s) (m_disk s) (m_globals s)
      | _ => false
      end = true) as HX by (vm_compute; reflexivity).
    destruct (execute case_env c (case_types2 0) sharing_before (fresh_machine (case_types2 0) case_shared)) as [[os s]|?| |?]; try discriminate HX.
    exists s, os. split; [reflexivity|]. apply arranged_shared_b_ok with 2%nat; [reflexivity|exact HX]. }
  split; vm_compute; reflexivity.
Qed.
