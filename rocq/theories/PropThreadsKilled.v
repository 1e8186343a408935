(** Property C79: a process that is killed while its threads run. *)
From Coq Require Import String ZArith List Bool Lia.
From Verif Require Import Base Stream BaseFacts Dtype Values Spec ValuesFacts Header HeaderFacts ParseFacts ParserInv ParserRel NpyFacts Tensor Npy TensorVars Files
  Npz ZipFiles PropCompress Race PropRace Threads PropThreads Program ProgramSpec PropTensor PropDisk Arr Tinfl Tdefl PropProgram Parallel ProgServe PropForeign PropOthers Sessions SessionSpec PropSessions
  PropKilled PropParallel SharedArrays PropSharedArrays.
Import ListNotations.
Open Scope Z_scope.

(** Where thread [i] stands: the ideal world after the calls it has finished, run alone. *)
Definition stands (v : env) (ty : nat -> typing) (k : disk) (F : knowledge) (programs : nat -> list step) (w : workers) (i : nat) : world :=
  snd (ideally (mem v) (can_write k) (ty i) (firstn (length (k_seen (w i))) (programs i)) (begun F)).
(** Some thread may be inside a call that writes the file [p]: its next call is one, and it has not
    come to the end of it. *)
Definition being_written (v : env) (ty : nat -> typing) (k : disk) (F : knowledge) (programs : nat -> list step) (w : workers) (p : bytes) : Prop :=
  exists i x l, k_call (w i) = None /\ k_todo (w i) = x :: l /\ in_flight (stands v ty k F programs w i) x p.
(** When the process is killed those files may hold anything; the others are as they were. *)
Definition torn_by (written : bytes -> Prop) (before after : contents) : Prop :=
  forall p, ~ written p -> after p = before p.
Definition remains_torn (v : env) (ty : nat -> typing) (k : disk) (F : knowledge) (programs : nat -> list step) (w : workers) (F' : knowledge) : Prop :=
  exists F0, remains v ty k F programs w F0 /\
    forall p, (being_written v ty k F programs w p /\ F' p = Some Unknown) \/ (~ being_written v ty k F programs w p /\ F' p = F0 p).
(** What C79 says of a state the threads have come to. *)
Definition killed_there (v : env) (c : codec) (ty : nat -> typing) (k : disk) (F : knowledge) (programs : nat -> list step)
    (w : workers) (k' : disk) (g' : globals) : Prop :=
  (* a call of a thread, if it comes to its end, changes no other files than these *)
  (forall i, exists t k2 g2, moves v c (ty i) (w i) k' g' = Ok (t, k2, g2) /\
     torn_by (being_written v ty k F programs w) (file_at k') (file_at k2)) /\
  (* later runs *)
  forall k1 F' later, torn_by (being_written v ty k F programs w) (file_at k') k1 ->
    remains_torn v ty k F programs w F' -> sessions_covered later F' ->
    exists k2, run_sessions later k1 = Ok (ideal_sessions later F', k2).

Lemma mentions_dec l p : mentions l p \/ ~ mentions l p.
Proof.
  induction l as [|x l [(y & H1 & H2)|IH]].
  - right. intros (x & [] & _).
  - left. exists y. split; [now right|exact H2].
  - assert (path_of x = Some p \/ path_of x <> Some p) as [H|H].
    { destruct (path_of x) as [q|]; [|right; discriminate]. destruct (beq q p) eqn:E; [apply beq_eq in E; left; congruence|].
      right. intros [= ->]. rewrite beq_refl in E. discriminate. }
    + left. exists x. split; [now left|exact H].
    + right. intros (y & [<-|H1] & H2); [contradiction|]. apply IH. now exists y.
Qed.

Lemma call_writes v c ty k0 g0 programs w0 good i t k g t' k' g' :
  worker_at v c ty k0 g0 programs w0 good i t k g -> moves v c (ty i) t k g = Ok (t', k', g') ->
  forall p, (forall x l, k_call t = None -> k_todo t = x :: l ->
     ~ in_flight (snd (ideally (mem v) (can_write k0) (ty i) (firstn (length (k_seen t)) (programs i)) w0)) x p) ->
  file_at k' p = file_at k p.
Proof.
  intros (fin & rest & HP & HS & HCov & HCall) HM p HN. unfold moves in HM.
  destruct (k_call t) as [[q x]|] eqn:EC.
  { destruct q as [o s|b q|n q|cd q].
    - destruct (concludes x o (k_vars t)) as [o' m]. destruct (noted o'); try discriminate HM. injection HM as _ <- _. reflexivity.
    - destruct (thread_step _ g). injection HM as _ <- _. reflexivity.
    - destruct (thread_step _ g). injection HM as _ <- _. reflexivity.
    - destruct (thread_step _ g). injection HM as _ <- _. reflexivity. }
  destruct HCall as (HT & kv & HAg & HF & HOw). destruct (k_todo t) as [|x r] eqn:ET; [injection HM as _ <- _; reflexivity|].
  subst rest. specialize (HN x r eq_refl eq_refl).
  assert (firstn (length (k_seen t)) (programs i) = fin) as EF.
  { assert (forall l w, length (fst (ideally (mem v) (can_write k0) (ty i) l w)) = length l) as HL.
    { induction l as [|y l IH]; intros w; cbn [ideally]; [reflexivity|]. destruct (ideal (mem v) (can_write k0) (ty i) y w) as [o w1].
      specialize (IH w1). destruct (ideally _ _ _ l w1). cbn [fst length] in *. now rewrite IH. }
    rewrite HS, HL, HP, firstn_app, Nat.sub_diag, firstn_all, firstn_O. apply app_nil_r. }
  rewrite EF in HN.
  assert (forall q, path_of x = Some q -> mentions (programs i) q) as HPath.
  { intros q Hq. exists x. split; [|exact Hq]. rewrite HP. apply in_or_app. right. now left. }
  assert (forall q, written_by x = Some q -> writes (programs i) q) as HWr.
  { intros q Hq. exists x. split; [|exact Hq]. rewrite HP. apply in_or_app. right. now left. }
  unfold machine_of in HM. rewrite <- (prepares_frame (mentions (programs i)) v c (ty i) x (k_vars t) kv k (k_writers t) (k_readers t) g0 g HAg HPath) in HM.
  destruct (prepares v c (ty i) x (mk_machine (k_vars t) kv (k_writers t) (k_readers t) g0)) as [[j R']|] eqn:EP.
  { injection HM as _ <- _. reflexivity. }
  destruct (exec_frame (mentions (programs i)) (writes (programs i)) v c (ty i) x (k_vars t) kv k (k_writers t) (k_readers t) g0 g HAg HPath HWr HOw EP)
    as (o & m' & k1' & k2' & W' & R' & HX1 & HX2 & B1 & _ & B3).
  rewrite HX2 in HM. destruct (noted o); try discriminate HM. cbn [obind m_vars m_disk m_writers m_readers m_globals] in HM. injection HM as _ <- _.
  destruct (mentions_dec (programs i) p) as [Hp|Hp].
  - pose proof (exec_writes v c _ (ty i) _ _ x p HF HN) as HE. rewrite HX1 in HE. cbn [snd m_disk] in HE.
    rewrite <- (proj2 B1 p Hp), HE. exact (proj2 HAg p Hp).
  - apply (proj2 B3). intros Hw. apply Hp. now apply writes_mentions.
Qed.

Lemma killed_at v c ty k g0 F programs good w' k' g' : libnpy_codec v c ->
  (forall p, sim_file (F p) (file_at k p)) ->
  (forall i, worker_at v c ty k g0 programs (begun F) good i (w' i) k' g') ->
  (forall i, exists t k2 g2, moves v c (ty i) (w' i) k' g' = Ok (t, k2, g2)) ->
  (forall p, ~ (exists i, writes (programs i) p) -> file_at k' p = file_at k p) ->
  killed_there v c ty k F programs w' k' g'.
Proof.
  intros HC HF0 HW HM HK. split.
  - intros i. destruct (HM i) as (t & k2 & g2 & E). exists t, k2, g2. split; [exact E|]. intros p Hp.
    apply (call_writes _ _ _ _ _ _ _ _ _ _ _ _ _ _ _ (HW i) E). intros x l H1 H2 H3. apply Hp. exists i, x, l. auto.
  - intros k1 F' later HT (F0 & HR & HF') HSe. apply sessions_follow; [|exact HSe]. intros p.
    destruct (HF' p) as [[_ ->]|[HN ->]]; [exact I|]. rewrite (HT p HN).
    destruct (HR p) as [[HNW ->]|(i & HI & ->)].
    + rewrite HK by (intros [i Hi]; exact (HNW i Hi)). apply HF0.
    + exact (worker_files _ _ _ _ _ _ _ _ i _ _ _ p (HW i) (writes_mentions _ _ HI)).
Qed.

(** ** The property *)
(** With a lock around the calls that parse headers (any build): the threads come to a state in which the
    process can be killed. *)
Theorem C79_killed_under_a_lock : forall v c ty k F programs sched,
  libnpy_codec v c -> 2 ^ 32 <= mem v -> (forall p, holds (F p) (file_at k p)) ->
  (forall i j p, writes (programs i) p -> mentions (programs j) p -> i = j) ->
  (forall i, all_covered (mem v) (host_big v) (can_write k) (ty i) (programs i) (begun F)) ->
  arranged header_lock v c ty sched (idle ty programs) k starting_globals ->
  exists w' k' g', run_workers v c ty sched (idle ty programs) k starting_globals = Ok (w', k', g') /\
    undisturbed v ty k F programs w' /\ killed_there v c ty k F programs w' k' g'.
Proof.
  intros v c ty k F programs sched HC HM HF HO HA HS. assert (prior_parses starting_globals) as Hg by constructor.
  pose proof (prior_map_ok _ Hg) as Hm. pose proof (fun p => holds_sim _ _ (HF p)) as HF0.
  set (good := fun (p : proc answer) (o : outcome answer) (g : globals) => fst (fst (solo p g)) = o).
  assert (forall j g, map_ok (snd g) -> good (job_proc v j) (alone v starting_globals j) g) as G1.
  { intros j g1 H1. unfold good. rewrite job_solo. now apply alone_indep. }
  assert (forall p o g p' g', good p o g -> map_ok (snd g) -> thread_step p g = (p', g') -> good p' o g') as G2.
  { intros p o g1 p' g2 HD _ HT. unfold good in *. now rewrite (solo_step _ _ _ _ HT). }
  assert (forall o s o' g, good (Race.Done o s) o' g -> map_ok (snd g) -> o = o') as G3 by (intros o s o' g HX _; exact HX).
  destruct (run_at v c ty k starting_globals programs (begun F) HC HM Hg HO good header_lock) with sched (idle ty programs) k starting_globals
    as (w' & k' & g' & E & Hm' & HW & HK); auto.
  - intros w i j p x o g1 g2 HL HP Hj HCall. specialize (HL HP j Hj). congruence.
  - intros i. now apply idle_at.
  - exists w', k', g'. split; [exact E|]. split; [intros i; exact (worker_seen _ _ _ _ _ _ _ _ i _ _ _ (HW i))|].
    apply (killed_at v c ty k starting_globals F programs good); auto; [|exact (proj2 HK)].
    intros i. destruct (move_at v c ty k starting_globals programs (begun F) HC HM Hg good G1 G2 G3 i (w' i) k' g' (HW i) Hm') as (t & k2 & g2 & EM & _).
    eauto.
Qed.
Print Assumptions C79_killed_under_a_lock.
(** Without a lock, in a release build, when tokens stay whole. *)
Theorem C79_killed_without_a_lock : forall v c ty k F programs sched,
  dbg v = false -> libnpy_codec v c -> 2 ^ 32 <= mem v -> (forall p, holds (F p) (file_at k p)) ->
  (forall i j p, writes (programs i) p -> mentions (programs j) p -> i = j) ->
  (forall i, all_covered (mem v) (host_big v) (can_write k) (ty i) (programs i) (begun F)) ->
  arranged tokens_whole v c ty sched (idle ty programs) k starting_globals ->
  exists w' k' g', run_workers v c ty sched (idle ty programs) k starting_globals = Ok (w', k', g') /\
    undisturbed v ty k F programs w' /\ killed_there v c ty k F programs w' k' g'.
Proof.
  intros v c ty k F programs sched Hv HC HM HF HO HA HS. assert (prior_parses starting_globals) as Hg by constructor.
  pose proof (prior_map_ok _ Hg) as Hm. pose proof (fun p => holds_sim _ _ (HF p)) as HF0.
  set (good := fun (p : proc answer) (o : outcome answer) (g : globals) => due p o \/ due_mid p o g).
  assert (forall j g, map_ok (snd g) -> good (job_proc v j) (alone v starting_globals j) g) as G1.
  { intros j g1 H1. left. rewrite <- (job_solo v j starting_globals). apply due_fresh; [now apply fresh_job|exact Hm]. }
  assert (forall p o g p' g', good p o g -> map_ok (snd g) -> thread_step p g = (p', g') -> good p' o g') as G2.
  { intros p o g1 p' g2 HD H1 HT. now apply (due_step p o g1 p' g2). }
  assert (forall o s o' g, good (Race.Done o s) o' g -> map_ok (snd g) -> o = o') as G3.
  { intros o s o' g1 [[_ HD]|(n & q & HX & _)] H1; [|discriminate]. exact (HD g1 H1). }
  destruct (run_at v c ty k starting_globals programs (begun F) HC HM Hg HO good tokens_whole) with sched (idle ty programs) k starting_globals
    as (w' & k' & g' & E & Hm' & HW & HK); auto.
  - intros w i j p x o g1 g2 HL HP Hj HCall HG. apply due_keep with g1; [exact HG|]. specialize (HL HP j Hj). rewrite HCall in HL. exact HL.
  - intros i. now apply idle_at.
  - exists w', k', g'. split; [exact E|]. split; [intros i; exact (worker_seen _ _ _ _ _ _ _ _ i _ _ _ (HW i))|].
    apply (killed_at v c ty k starting_globals F programs good); auto; [|exact (proj2 HK)].
    intros i. destruct (move_at v c ty k starting_globals programs (begun F) HC HM Hg good G1 G2 G3 i (w' i) k' g' (HW i) Hm') as (t & k2 & g2 & EM & _).
    eauto.
Qed.
Print Assumptions C79_killed_without_a_lock.

(** A case: after eleven moves of C74's schedule thread 0 is parsing the header of a file it has saved, and
    thread 1 is about to write a member of its archive.  Killed inside that call, the archive may be anything
    and all else is as the two programs have left it. *)
Definition torn_left : knowledge := fun p =>
  if beq p (str "c.npz") then Some Unknown
  else if beq p (str "a.npy") then files (snd (ideally (mem case_env) (can_write case_shared) (case_types2 0) (firstn 3 (case_programs 0)) (begun case_knows))) p
  else if beq p (str "b.npy") then files (snd (ideally (mem case_env) (can_write case_shared) (case_types2 1) (firstn 4 (case_programs 1)) (begun case_knows))) p
  else case_knows p.
Definition torn_later : list session :=
  [mk_session release (codec_on release) (case_types2 0) (fun _ => true)
     [SLoad 0 (str "a.npy"); SGet 0 [1; 0]; SLoad 0 (str "b.npy"); SList 0; SLoad 9 (str "n.npy"); SGet 9 [0; 0]] []].
Example C79_case : exists w k' g',
  run_workers case_env (codec_on case_env) case_types2 (firstn 11 case_schedule) (idle case_types2 case_programs) case_shared starting_globals = Ok (w, k', g') /\
  killed_there case_env (codec_on case_env) case_types2 case_shared case_knows case_programs w k' g' /\
  busy (w 0%nat) = true /\
  (forall p, being_written case_env case_types2 case_shared case_knows case_programs w p <-> p = str "c.npz") /\
  remains_torn case_env case_types2 case_shared case_knows case_programs w torn_left /\
  sessions_covered torn_later torn_left /\
  ideal_sessions torn_later torn_left =
    [[Program.Done; Saw (Scalar 2); Program.Done; SawAll (map Scalar [7; 8; 9]); Program.Done; Saw (WStr [0x41; 0x1F600])]].
Proof.
  destruct C74_case as (H1 & H2 & H3 & H4 & _).
  destruct (C79_killed_under_a_lock case_env (codec_on case_env) case_types2 case_shared case_knows case_programs (firstn 11 case_schedule))
    as (w & k' & g' & E & HU & HKill); auto.
  { vm_compute. discriminate. }
  { apply arranged_b_ok with 2%nat; [reflexivity|]. vm_compute. reflexivity. }
  assert (busy (w 0%nat) = true /\ busy (w 1%nat) = false /\ length (k_seen (w 0%nat)) = 3%nat /\ length (k_seen (w 1%nat)) = 4%nat /\
    hd_error (k_todo (w 1%nat)) = Some (SWrite 0 (str "x") 0)) as (W1 & W2 & W3 & W4 & W5).
  { assert (match run_workers case_env (codec_on case_env) case_types2 (firstn 11 case_schedule) (idle case_types2 case_programs) case_shared starting_globals with
      | Ok (w, _, _) => (busy (w 0%nat), busy (w 1%nat), length (k_seen (w 0%nat)), length (k_seen (w 1%nat)), hd_error (k_todo (w 1%nat)))
      | _ => (false, false, O, O, None)
      end = (true, false, 3%nat, 4%nat, Some (SWrite 0 (str "x") 0))) as HX by (vm_compute; reflexivity).
    rewrite E in HX. injection HX as X1 X2 X3 X4 X5. auto. }
  assert (forall p, being_written case_env case_types2 case_shared case_knows case_programs w p <-> p = str "c.npz") as HB.
  { intros p. unfold being_written, stands. split.
    - intros (i & x & l & C1 & C2 & C3). destruct i as [|[|i]].
      + unfold busy in W1. rewrite C1 in W1. discriminate.
      + rewrite C2 in W5. injection W5 as ->. rewrite W4 in C3. destruct C3 as (y & Y1 & _ & _ & Y2).
        apply (f_equal (option_map ar_path)) in Y1. cbn [option_map] in Y1. rewrite Y2 in Y1. vm_compute in Y1. injection Y1 as <-. reflexivity.
      + destruct (HU (S (S i))) as [_ HL]. rewrite C2 in HL. cbn [case_programs length] in HL. lia.
    - intros ->. exists 1%nat. destruct (k_todo (w 1%nat)) as [|x l] eqn:ET; [discriminate W5|]. injection W5 as ->.
      exists (SWrite 0 (str "x") 0), l. split; [unfold busy in W2; destruct (k_call (w 1%nat)); [discriminate|reflexivity]|].
      split; [reflexivity|]. rewrite W4. eexists. repeat split. }
  exists w, k', g'. split; [exact E|]. split; [exact HKill|]. split; [exact W1|]. split; [exact HB|]. split; [|split].
  - set (F0 := fun p => if beq p (str "a.npy") then files (stands case_env case_types2 case_shared case_knows case_programs w 0) p
      else if beq p (str "b.npy") || beq p (str "c.npz") then files (stands case_env case_types2 case_shared case_knows case_programs w 1) p else case_knows p).
    exists F0. split.
    + intros p. unfold F0.
      destruct (beq p (str "a.npy")) eqn:Ea; [|destruct (beq p (str "b.npy")) eqn:Eb; [|destruct (beq p (str "c.npz")) eqn:Ec]]; cbn [orb].
      * right. exists 0%nat. split; [|reflexivity]. apply beq_eq in Ea. subst p. eexists. split; [do 2 right; left; reflexivity|reflexivity].
      * right. exists 1%nat. split; [|reflexivity]. apply beq_eq in Eb. subst p. eexists. split; [do 2 right; left; reflexivity|reflexivity].
      * right. exists 1%nat. split; [|reflexivity]. apply beq_eq in Ec. subst p. eexists. split; [do 3 right; left; reflexivity|reflexivity].
      * left. split; [|reflexivity]. intros i (x & HI & HW).
        destruct i as [|[|i]]; cbn [case_programs In] in HI; [..|contradiction];
          repeat (destruct HI as [<-|HI]; [cbn [written_by] in HW; try discriminate HW; injection HW as <-; rewrite beq_refl in *; discriminate|]); contradiction.
    + intros p. rewrite HB. unfold torn_left, F0, stands. rewrite W3, W4. destruct (beq p (str "c.npz")) eqn:Ec.
      * left. apply beq_eq in Ec. auto.
      * right. split; [intros ->; rewrite beq_refl in Ec; discriminate|]. rewrite orb_false_r. reflexivity.
  - assert (forall v opens i x l w, covered false opens (case_types2 i) x w ->
      all_covered (mem v) false opens (case_types2 i) l (snd (ideal (mem v) opens (case_types2 i) x w)) ->
      all_covered (mem v) false opens (case_types2 i) (x :: l) w) as HS by (intros v opens i x l w0 X1 X2; exact (conj X1 X2)).
    unfold torn_later. cbn [sessions_covered s_env s_codec s_types s_opens s_program s_after].
    split. { split; [reflexivity|]. split; [reflexivity|]. intros b. exists arr_empty, arr_empty, arr_empty. split; [|reflexivity].
      intros i Hi. rewrite arr_get_empty. lia. }
    split; [vm_compute; congruence|]. split; [|split; [constructor|exact I]].
    apply (HS release); [is_there|].
    apply (HS release); [split; [small|vm_compute; congruence]|].
    apply (HS release); [is_there|].
    apply (HS release); [vm_compute; congruence|].
    apply (HS release); [is_there|].
    apply (HS release); [split; [small|vm_compute; congruence]|]. exact I.
  - vm_compute. reflexivity.
Qed.

(** One move changes no variable that the call does not change. *)
Lemma moves_vars v c ty t k g t' k' g' n : moves v c ty t k g = Ok (t', k', g') ->
  (forall p x, k_call t = Some (p, x) -> ~ In n (changes x)) -> (forall x l, k_call t = None -> k_todo t = x :: l -> ~ In n (changes x)) ->
  k_vars t' n = k_vars t n.
Proof.
  intros E H1 H2. destruct (k_call t) as [[p x]|] eqn:EC.
  - pose proof (H1 p x eq_refl) as HN. unfold moves in E. rewrite EC in E. destruct p as [o s|b q|z q|cd q].
    + pose proof (concludes_keeps x o (k_vars t) n HN) as HK1. destruct (concludes x o (k_vars t)) as [o' m2].
      destruct (noted o'); try discriminate E. injection E as <- _ _. exact HK1.
    + destruct (thread_step _ g). injection E as <- _ _. reflexivity.
    + destruct (thread_step _ g). injection E as <- _ _. reflexivity.
    + destruct (thread_step _ g). injection E as <- _ _. reflexivity.
  - apply (moves_keeps _ _ _ _ _ _ _ _ _ n E); [intros p x H; congruence|]. intros x l H. exact (H2 x l eq_refl H).
Qed.

(** ** Threads that share arrays (C82) are killed *)
(** As [stands], [being_written], [remains_torn] and [killed_there], for threads that start from [start] and share arrays. *)
Definition stands_from (start : world) (v : env) (ty : nat -> typing) (k : disk) (programs : nat -> list step) (w : workers) (i : nat) : world :=
  snd (ideally (mem v) (can_write k) (ty i) (firstn (length (k_seen (w i))) (programs i)) start).
Definition being_written_from (start : world) (v : env) (ty : nat -> typing) (k : disk) (programs : nat -> list step) (w : workers) (p : bytes) : Prop :=
  exists i x l, k_call (w i) = None /\ k_todo (w i) = x :: l /\ in_flight (stands_from start v ty k programs w i) x p.
Definition remains_torn_from (start : world) (v : env) (ty : nat -> typing) (k : disk) (programs : nat -> list step) (w : workers) (F' : knowledge) : Prop :=
  exists F0, remains_from start v ty k programs w F0 /\
    forall p, (being_written_from start v ty k programs w p /\ F' p = Some Unknown) \/ (~ being_written_from start v ty k programs w p /\ F' p = F0 p).
Definition sharing_killed_there (start : world) (v : env) (c : codec) (ty : nat -> typing) (common : nat -> bool) (k : disk) (programs : nat -> list step)
    (w : workers) (m' : objects) (k' : disk) (g' : globals) : Prop :=
  (* a call of a thread, if it comes to its end, changes no other files than these, and no shared array *)
  (forall i, exists t m2 k2 g2, shared_moves v c (ty i) common (w i) m' k' g' = Ok (t, m2, k2, g2) /\
     (forall n, m2 n = m' n) /\ torn_by (being_written_from start v ty k programs w) (file_at k') (file_at k2)) /\
  (* later runs *)
  forall k1 F' later, torn_by (being_written_from start v ty k programs w) (file_at k') k1 ->
    remains_torn_from start v ty k programs w F' -> sessions_covered later F' ->
    exists k2, run_sessions later k1 = Ok (ideal_sessions later F', k2).
(** Wherever the threads can come to, the process can be killed. *)
Definition can_be_killed (safe_at : workers -> nat -> Prop) (v : env) (c : codec) (ty : nat -> typing) (common : nat -> bool) (k : disk)
    (programs : nat -> list step) (start : world) (s : machine) : Prop :=
  forall sched, arranged_shared safe_at v c ty common sched (idle ty programs) (m_vars s) (m_disk s) (m_globals s) ->
  exists w' m' k' g', run_shared v c ty common sched (idle ty programs) (m_vars s) (m_disk s) (m_globals s) = Ok (w', m', k', g') /\
    sharing_killed_there start v c ty common k programs w' m' k' g'.

Lemma sharing_killed v c ty0 ty common k F before programs start (good : globals -> proc answer -> outcome answer -> globals -> Prop) (may : workers -> nat -> Prop) :
  shares v c ty0 ty common k F before programs start ->
  (forall g0, prior_parses g0 -> forall j g, map_ok (snd g) -> good g0 (job_proc v j) (alone v g0 j) g) ->
  (forall g0 p o g p' g', good g0 p o g -> map_ok (snd g) -> thread_step p g = (p', g') -> good g0 p' o g') ->
  (forall g0 o s o' g, good g0 (Race.Done o s) o' g -> map_ok (snd g) -> o = o') ->
  (forall g0 w i j p x o g g', may w i -> parsing (w i) -> j <> i -> k_call (w j) = Some (p, x) -> good g0 p o g -> good g0 p o g') ->
  (forall w m i, may w i -> may (view common m w) i) ->
  exists s, execute v c ty0 before (fresh_machine ty0 k) = Ok (fst (ideally (mem v) (can_write k) ty0 before (begun F)), s) /\
    can_be_killed may v c ty common k programs start s.
Proof.
  intros HSh G1 G2 G3 G4 G5. destruct (sharing_starts v c ty0 ty common k F before programs start HSh) as (s & E & HCW & HFi & Hg & HAt).
  destruct HSh as (HC & HM & HF & HB & HS0 & HTy & HCo & HO & HA).
  exists s. split; [exact E|]. intros sched HS.
  assert (forall p o g p' g', good (m_globals s) p o g -> map_ok (snd g) -> thread_step p g = (p', g') -> good (m_globals s) p' o g') as G2' by (intros p o g p' g'; apply G2).
  assert (forall o st o' g, good (m_globals s) (Race.Done o st) o' g -> map_ok (snd g) -> o = o') as G3' by (intros o st o' g; apply G3).
  destruct (run_shared_at v c ty common (m_disk s) (m_globals s) programs start HC HM Hg HO HCo (good (m_globals s)) may) with sched (idle ty programs) (m_vars s) (m_disk s) (m_globals s)
    as (w' & m' & k' & g' & ER & HM' & Hm' & HW & HK); auto.
  { intros w i j p x o g g'. apply G4. }
  { now apply prior_map_ok. }
  exists w', m', k', g'. split; [exact ER|].
  assert (forall i, exists t k2 g2, moves v c (ty i) (view common m' w' i) k' g' = Ok (t, k2, g2)) as HMv.
  { intros i. destruct (move_at v c ty (m_disk s) (m_globals s) programs start HC HM Hg (good (m_globals s)) (G1 _ Hg) G2' G3' i (view common m' w' i) k' g' (HW i) Hm')
      as (t & k2 & g2 & EM & _). eauto. }
  split.
  - intros i. destruct (HMv i) as (t & k2 & g2 & EM). unfold shared_moves.
    change (with_vars (w' i) (sees common m' (k_vars (w' i)))) with (view common m' w' i). rewrite EM. cbn [obind].
    do 4 eexists. split; [reflexivity|]. split.
    + intros n. unfold sees. destruct (common n) eqn:EN; [|reflexivity].
      destruct (at_programs v c ty (m_disk s) (m_globals s) programs start (good (m_globals s)) i _ k' g' (HW i)) as [P1 P2].
      assert (forall x, In x (programs i) -> ~ In n (changes x)) as HX by (intros x H1 H2; rewrite (HCo i x n H1 H2) in EN; discriminate).
      assert (k_vars t n = k_vars (view common m' w' i) n) as ->; [|unfold view, with_vars, sees; cbn [k_vars]; now rewrite EN].
      exact (moves_vars _ _ _ _ _ _ _ _ _ n EM (fun p x H => HX x (P1 p x H)) (fun x l H1 H2 => HX x (P2 x l H1 H2))).
    + intros p Hp. apply (call_writes _ _ _ _ _ _ _ _ _ _ _ _ _ _ _ (HW i) EM). intros x l H1 H2 H3. apply Hp. exists i, x, l.
      unfold stands_from. rewrite <- HCW. auto.
  - intros k1 F' later HT (F0 & HR & HF') HSe. apply sessions_follow; [|exact HSe]. intros p.
    destruct (HF' p) as [[_ ->]|[HN ->]]; [exact I|]. rewrite (HT p HN).
    destruct (HR p) as [[HNW ->]|(i & HI & ->)].
    + rewrite (proj2 HK) by (intros [i Hi]; exact (HNW i Hi)). apply HFi.
    + pose proof (worker_files v c ty (m_disk s) (m_globals s) programs start (good (m_globals s)) i (view common m' w' i) k' g' p (HW i) (writes_mentions _ _ HI)) as HX.
      rewrite HCW in HX. exact HX.
Qed.

(** Threads that share arrays, as in C82, are killed at any moment; the main thread has ended its calls before. *)
Theorem C82_killed_under_a_lock : forall v c ty0 ty common k F before programs start,
  shares v c ty0 ty common k F before programs start ->
  exists s, execute v c ty0 before (fresh_machine ty0 k) = Ok (fst (ideally (mem v) (can_write k) ty0 before (begun F)), s) /\
    can_be_killed header_lock v c ty common k programs start s.
Proof.
  intros v c ty0 ty common k F before programs start HS.
  apply (sharing_killed v c ty0 ty common k F before programs start (fun g0 p o g => fst (fst (solo p g)) = o) header_lock HS).
  - intros g0 Hg j g1 H1. rewrite job_solo. apply alone_indep; [exact H1|now apply prior_map_ok].
  - intros g0 p o g1 p' g2 HD _ HT. now rewrite (solo_step _ _ _ _ HT).
  - intros g0 o s o' g1 H _. exact H.
  - intros g0 w i j p x o g1 g2 HL HP Hj HCall. specialize (HL HP j Hj). congruence.
  - intros w m i H. exact H.
Qed.
Print Assumptions C82_killed_under_a_lock.
Theorem C82_killed_without_a_lock : forall v c ty0 ty common k F before programs start, dbg v = false ->
  shares v c ty0 ty common k F before programs start ->
  exists s, execute v c ty0 before (fresh_machine ty0 k) = Ok (fst (ideally (mem v) (can_write k) ty0 before (begun F)), s) /\
    can_be_killed tokens_whole v c ty common k programs start s.
Proof.
  intros v c ty0 ty common k F before programs start Hv HS.
  apply (sharing_killed v c ty0 ty common k F before programs start (fun _ p o g => due p o \/ due_mid p o g) tokens_whole HS).
  - intros g0 Hg j g1 H1. left. pose proof (prior_map_ok _ Hg) as Hm. rewrite <- (job_solo v j g0). apply due_fresh; [now apply fresh_job|exact Hm].
  - intros g0 p o g1 p' g2 HD H1 HT. now apply (due_step p o g1 p' g2).
  - intros g0 o s o' g1 [[_ HD]|(n & q & HX & _)] H1; [|discriminate]. exact (HD g1 H1).
  - intros g0 w i j p x o g1 g2 HL HP Hj HCall HG. apply due_keep with g1; [exact HG|]. specialize (HL HP j Hj). rewrite HCall in HL. exact HL.
  - intros w m i H. exact H.
Qed.
Print Assumptions C82_killed_without_a_lock.
