(** C48, continued: any number of threads, each making any number of calls. *)
From Coq Require Import String ZArith List Bool Lia.
From Verif Require Import Base Stream BaseFacts Dtype Values Spec ValuesFacts Header HeaderFacts ParseFacts ParserInv ParserRel
  NpyFacts Tensor TensorFacts PropTensor Npy SaveFacts PropNpy Race PropRace Threads.
Import ListNotations.
Open Scope Z_scope.

(** What a call gives when it is the only one running. *)
Definition alone (v : env) (g : globals) (j : job) : outcome answer :=
  match j with
  | JLoad d s => let* t := fst (fst (load v d s g)) in Ok (Tensor_of t)
  | JPeek s => let* h := fst (fst (peek v s g)) in Ok (Header_of h)
  end.

Lemma header_in_two v s g : match header_text v s with
  | Ok (text, s1) => let (o, g') := parse_dictionary v text g in read_npy_header v s g = (o, s1, g')
  | Throw e => fst (fst (read_npy_header v s g)) = Throw e
  | AssertFail => fst (fst (read_npy_header v s g)) = AssertFail
  | Undef u => fst (fst (read_npy_header v s g)) = Undef u
  end.
Proof.
  unfold header_text, read_npy_header. destruct (sread STATIC_HEADER_LENGTH s) as [got s1].
  match goal with |- context [obind ?x _] =>
    match x with context [check_magic] => set (pre := x) end end.
  destruct pre as [[n s2]| | |]; cbn [obind fst]; try reflexivity.
  destruct (n >? mem v); [reflexivity|]. destruct (sread n s2) as [d s3].
  now destruct (parse_dictionary v (d ++ zrepeat 0 (n - len d)) g) as [o g'].
Qed.
Lemma job_solo v j g : fst (fst (solo (job_proc v j) g)) = alone v g j.
Proof.
  unfold job_proc, alone. destruct j as [d s|s].
  - pose proof (header_in_two v s g) as H. unfold load. destruct (header_text v s) as [[text s1]| | |].
    + rewrite solo_bind. pose proof (thread_solo v text g) as HT. destruct (solo (parse_thread v text) g) as [[o s2] g2].
      rewrite HT in H. rewrite H. destruct o as [h| | |]; cbn [fst obind]; try reflexivity.
      destruct (tensor_load v d h s1) as [o s3]. now destruct o.
    + cbn [solo fst]. destruct (read_npy_header v s g) as [[o s1] g1]. cbn [fst] in H. now subst.
    + cbn [solo fst]. destruct (read_npy_header v s g) as [[o s1] g1]. cbn [fst] in H. now subst.
    + cbn [solo fst]. destruct (read_npy_header v s g) as [[o s1] g1]. cbn [fst] in H. now subst.
  - pose proof (header_in_two v s g) as H. unfold peek. destruct (header_text v s) as [[text s1]| | |].
    + rewrite solo_bind. pose proof (thread_solo v text g) as HT. destruct (solo (parse_thread v text) g) as [[o s2] g2].
      rewrite HT in H. rewrite H. now destruct o as [h| | |].
    + cbn [solo fst]. destruct (read_npy_header v s g) as [[o s1] g1]. cbn [fst] in H. now subst.
    + cbn [solo fst]. destruct (read_npy_header v s g) as [[o s1] g1]. cbn [fst] in H. now subst.
    + cbn [solo fst]. destruct (read_npy_header v s g) as [[o s1] g1]. cbn [fst] in H. now subst.
Qed.
Lemma header_indep v s g1 g2 : map_ok (snd g1) -> map_ok (snd g2) ->
  fst (read_npy_header v s g1) = fst (read_npy_header v s g2).
Proof.
  intros H1 H2. unfold read_npy_header. destruct (sread STATIC_HEADER_LENGTH s) as [got s1].
  match goal with |- context [match ?x with Ok _ => _ | Throw _ => _ | AssertFail => _ | Undef _ => _ end] => set (pre := x) end.
  destruct pre as [[n s2]| | |]; cbn [fst]; try reflexivity.
  destruct (n >? mem v); [reflexivity|]. destruct (sread n s2) as [d s3].
  pose proof (parse_dictionary_indep v (d ++ zrepeat 0 (n - len d)) g1 g2 H1 H2) as H.
  destruct (parse_dictionary v (d ++ zrepeat 0 (n - len d)) g1) as [o1 g1'].
  destruct (parse_dictionary v (d ++ zrepeat 0 (n - len d)) g2) as [o2 g2'].
  cbn [fst] in H. now subst.
Qed.
Lemma alone_indep v j g1 g2 : map_ok (snd g1) -> map_ok (snd g2) -> alone v g1 j = alone v g2 j.
Proof.
  intros H1 H2. unfold alone, load, peek. destruct j as [d s|s]; pose proof (header_indep v s g1 g2 H1 H2) as H;
  destruct (read_npy_header v s g1) as [[o1 s1] g1']; destruct (read_npy_header v s g2) as [[o2 s2] g2']; cbn [fst] in H;
  injection H as -> ->; [|reflexivity].
  destruct o2 as [h| | |]; try reflexivity. now destruct (tensor_load v d h s2).
Qed.
Lemma fresh_job v j : dbg v = false -> fresh (job_proc v j).
Proof.
  intros Hv. unfold job_proc. set (s := match j with JLoad _ s | JPeek s => s end).
  destruct (header_text v s) as [[text s1]| | |]; try apply fresh_done.
  apply fresh_bind; [now apply fresh_thread|]. intros h s2. destruct j as [d s'|s']; [|apply fresh_done].
  destruct (tensor_load v d h s1). apply fresh_done.
Qed.

(** The threads of a program that makes these calls. *)
Definition all_new (jobs : nat -> list job) : pool := fun i => new_thread (jobs i).
(** Every thread's finished calls gave what each gives alone, and it is where it should be
    in its list of calls. *)
Definition as_if_alone (v : env) (g0 : globals) (jobs : nat -> list job) (w : pool) : Prop :=
  forall i, let n := length (finished (w i)) in
    finished (w i) = map (alone v g0) (firstn n (jobs i)) /\
    todo (w i) = skipn (match current (w i) with None => n | Some _ => S n end) (jobs i) /\
    (match current (w i) with None => n | Some _ => S n end <= length (jobs i))%nat.

Section Threads.
  Variables (v : env) (g0 : globals) (jobs : nat -> list job).
  Variable good : proc answer -> outcome answer -> globals -> Prop.
  Variable may : pool -> nat -> Prop.
  Hypothesis Hstart : forall j g, map_ok (snd g) -> good (job_proc v j) (alone v g0 j) g.
  Hypothesis Hstep : forall p o g p' g', good p o g -> map_ok (snd g) -> thread_step p g = (p', g') -> good p' o g'.
  Hypothesis Hdone : forall o s o' g, good (Done o s) o' g -> map_ok (snd g) -> o = o'.
  Hypothesis Hkeep : forall w i j p o g g', may w i -> j <> i -> current (w j) = Some p -> good p o g -> good p o g'.
  Definition thread_at (l : list job) (t : thread) (g : globals) : Prop := exists fin rest,
    l = fin ++ rest /\ finished t = map (alone v g0) fin /\
    match current t with
    | None => todo t = rest
    | Some p => exists j r, rest = j :: r /\ todo t = r /\ good p (alone v g0 j) g
    end.
  Lemma advance_at l t g : thread_at l t g -> map_ok (snd g) ->
    let (t', g') := advance v t g in thread_at l t' g' /\ map_ok (snd g').
  Proof.
    intros (fin & rest & -> & HF & HC) Hm. unfold advance. destruct (current t) as [p|] eqn:E.
    - destruct HC as (j & r & -> & HT & HG).
      assert (forall p' g', thread_step p g = (p', g') -> map_ok (snd g')) as HM.
      { intros p' g' HS. destruct p as [o s|b k|n k|c k]; cbn [thread_step] in HS; try (injection HS as <- <-; exact Hm).
        pose proof (map_ok_step c (snd g) Hm) as HX. destruct (from_dtype c (snd g)) as [de m]. injection HS as <- <-. exact HX. }
      assert (forall p' g', thread_step p g = (p', g') ->
              thread_at (fin ++ j :: r) (mk_thread (finished t) (Some p') (todo t)) g') as HN.
      { intros p' g' HS. exists fin, (j :: r). cbn [finished current todo]. split; [reflexivity|]. split; [exact HF|].
        exists j, r. split; [reflexivity|]. split; [exact HT|]. now apply Hstep with p g. }
      destruct p as [o s|b k|n k|c k].
      + split; [|exact Hm]. apply Hdone in HG; [|exact Hm]. subst o. exists (fin ++ [j]), r. cbn [finished current todo].
        split; [now rewrite <- app_assoc|]. split; [now rewrite HF, map_app|exact HT].
      + destruct (thread_step (Fill b k) g) as [p' g'] eqn:HS. split; [now apply HN|exact (HM _ _ eq_refl)].
      + destruct (thread_step (Take n k) g) as [p' g'] eqn:HS. split; [now apply HN|exact (HM _ _ eq_refl)].
      + destruct (thread_step (Lookup c k) g) as [p' g'] eqn:HS. split; [now apply HN|exact (HM _ _ eq_refl)].
    - destruct (todo t) as [|j r] eqn:ET.
      + split; [|exact Hm]. exists fin, rest. rewrite E, ET. auto.
      + split; [|exact Hm]. exists fin, rest. cbn [finished current todo]. split; [reflexivity|]. split; [exact HF|].
        exists j, r. split; [now rewrite <- HC|]. split; [reflexivity|]. now apply Hstart.
  Qed.
  Lemma pool_at sched : forall w g, map_ok (snd g) -> (forall i, thread_at (jobs i) (w i) g) -> scheduled may v sched w g ->
    let (w', g') := run_pool v sched w g in forall i, thread_at (jobs i) (w' i) g'.
  Proof.
    induction sched as [|i r IH]; intros w g Hm HW HS; cbn [run_pool scheduled] in *; [exact HW|].
    destruct HS as [HI HS]. pose proof (advance_at (jobs i) (w i) g (HW i) Hm) as HA.
    destruct (advance v (w i) g) as [t g']. destruct HA as [HA Hm']. apply IH; [exact Hm'| |exact HS].
    intros j. unfold set_thread. destruct (Nat.eqb_spec j i) as [->|Hj]; [exact HA|].
    destruct (HW j) as (fin & rest & H1 & H2 & H3). exists fin, rest. split; [exact H1|]. split; [exact H2|].
    destruct (current (w j)) as [p|] eqn:E; [|exact H3]. destruct H3 as (k & q & H4 & H5 & H6). exists k, q.
    split; [exact H4|]. split; [exact H5|]. now apply (Hkeep w i j p _ g g').
  Qed.
  Lemma pool_alone sched w' g' : map_ok (snd g0) -> scheduled may v sched (all_new jobs) g0 ->
    run_pool v sched (all_new jobs) g0 = (w', g') -> as_if_alone v g0 jobs w'.
  Proof.
    intros Hm HS HR i.
    assert (forall i, thread_at (jobs i) (all_new jobs i) g0) as H0.
    { intros k. exists [], (jobs k). split; [reflexivity|]. split; reflexivity. }
    pose proof (pool_at sched _ g0 Hm H0 HS) as H. rewrite HR in H. destruct (H i) as (fin & rest & H1 & H2 & H3).
    cbv zeta. rewrite H2, map_length, H1, firstn_app, Nat.sub_diag, firstn_all, firstn_O, app_nil_r.
    split; [reflexivity|]. rewrite app_length. destruct (current (w' i)) as [p|].
    - destruct H3 as (j & r & -> & H4 & _). split.
      + rewrite skipn_app, skipn_all2 by lia. replace (S (length fin) - length fin)%nat with 1%nat by lia. exact H4.
      + cbn [length]. lia.
    - rewrite skipn_app, skipn_all, Nat.sub_diag. split; [exact H3|lia].
  Qed.
End Threads.

(** With assertions compiled out: however many threads there are and whatever they load
    or peek, under every schedule that never runs another thread between a thread's fill of
    BUFFER and its copy, every call that has returned gave what it gives on its own. *)
Theorem C48_any_number_of_threads : forall v jobs sched g w' g', dbg v = false -> prior_parses g ->
  scheduled tokens_apart v sched (all_new jobs) g -> run_pool v sched (all_new jobs) g = (w', g') ->
  as_if_alone v g jobs w'.
Proof.
  intros v jobs sched g w' g' Hv Hg HS HR. apply prior_map_ok in Hg.
  apply (pool_alone v g jobs (fun p o g => due p o \/ due_mid p o g) tokens_apart) with sched g'; auto.
  - intros j g1 H1. left. rewrite <- (job_solo v j g). apply due_fresh; [now apply fresh_job|exact Hg].
  - intros p o g1 p' g2 HD Hm HT. now apply (due_step p o g1 p' g2).
  - intros o s o' g1 [[_ HD]|(n & k & HX & _)] Hm; [|discriminate]. exact (HD g1 Hm).
  - intros w i j p o g1 g2 HM Hj HC HG. apply due_keep with g1; [exact HG|]. specialize (HM j Hj). now rewrite HC in HM.
Qed.
Print Assumptions C48_any_number_of_threads.

Lemma solo_step {A} (p : proc A) g p' g' : thread_step p g = (p', g') -> solo p' g' = solo p g.
Proof.
  destruct p as [o s|b k|n k|c k]; cbn [thread_step]; try (intros [= <- <-]; reflexivity).
  intros HS. cbn [solo]. destruct (from_dtype c (snd g)) as [de m]. injection HS as <- <-. reflexivity.
Qed.
(** With or without assertions: a lock held around every call is enough. *)
Theorem C48_a_lock_suffices : forall v jobs sched g w' g', prior_parses g ->
  scheduled locked v sched (all_new jobs) g -> run_pool v sched (all_new jobs) g = (w', g') ->
  as_if_alone v g jobs w'.
Proof.
  intros v jobs sched g w' g' Hg HS HR. apply prior_map_ok in Hg.
  apply (pool_alone v g jobs (fun p o g => fst (fst (solo p g)) = o) locked) with sched g'; auto.
  - intros j g1 H1. rewrite job_solo. now apply alone_indep.
  - intros p o g1 p' g2 HD Hm HT. now rewrite (solo_step _ _ _ _ HT).
  - intros w i j p o g1 g2 HM Hj HC HG. specialize (HM j Hj). congruence.
Qed.
Print Assumptions C48_a_lock_suffices.

(** Such schedules let every call of any number of threads return. *)
Lemma run_pool_app v a b : forall w g, run_pool v (a ++ b) w g = let (w', g') := run_pool v a w g in run_pool v b w' g'.
Proof. induction a as [|i a IH]; intros w g; cbn [app run_pool]; [reflexivity|]. destruct (advance v (w i) g). apply IH. Qed.
Lemma scheduled_app may v a b : forall w g, scheduled may v (a ++ b) w g <->
  scheduled may v a w g /\ let (w', g') := run_pool v a w g in scheduled may v b w' g'.
Proof.
  induction a as [|i a IH]; intros w g; cbn [app run_pool scheduled]; [tauto|]. destruct (advance v (w i) g) as [t g'].
  rewrite IH. tauto.
Qed.
Lemma set_same w i t : set_thread w i t i = t.
Proof. unfold set_thread. now rewrite Nat.eqb_refl. Qed.
Lemma set_other w i t j : j <> i -> set_thread w i t j = w j.
Proof. unfold set_thread. intros H. apply Nat.eqb_neq in H. now rewrite H. Qed.
Definition others_idle (w : pool) (i : nat) := forall j, j <> i -> current (w j) = None.
Lemma finish_call v i p : forall w g, current (w i) = Some p -> others_idle w i ->
  exists sched, scheduled locked v sched w g /\ let (w', _) := run_pool v sched w g in
    current (w' i) = None /\ todo (w' i) = todo (w i) /\ forall j, j <> i -> w' j = w j.
Proof.
  assert (forall w t, others_idle w i -> others_idle (set_thread w i t) i) as HI.
  { intros w t H j Hj. rewrite set_other by exact Hj. now apply H. }
  induction p as [o s|b k IH|n k IH|c k IH]; intros w g HC HO.
  - exists [i]. cbn [run_pool scheduled]. unfold advance. rewrite HC. split; [split; [exact HO|exact I]|].
    rewrite !set_same. split; [reflexivity|]. split; [reflexivity|]. intros j Hj. now rewrite set_other.
  - destruct (IH (set_thread w i (mk_thread (finished (w i)) (Some k) (todo (w i)))) (blit b (fst g), snd g)) as (sched & HS & HR).
    { rewrite set_same. reflexivity. } { now apply HI. }
    exists (i :: sched). cbn [run_pool scheduled]. unfold advance. rewrite HC. cbn [thread_step]. split; [split; [exact HO|exact HS]|].
    destruct (run_pool v sched _ _) as [w' g']. rewrite set_same in HR. destruct HR as (H1 & H2 & H3).
    split; [exact H1|]. split; [exact H2|]. intros j Hj. rewrite H3 by exact Hj. now apply set_other.
  - destruct (IH (ztake n (fst g)) (set_thread w i (mk_thread (finished (w i)) (Some (k (ztake n (fst g)))) (todo (w i)))) g) as (sched & HS & HR).
    { rewrite set_same. reflexivity. } { now apply HI. }
    exists (i :: sched). cbn [run_pool scheduled]. unfold advance. rewrite HC. cbn [thread_step]. split; [split; [exact HO|exact HS]|].
    destruct (run_pool v sched _ _) as [w' g']. rewrite set_same in HR. destruct HR as (H1 & H2 & H3).
    split; [exact H1|]. split; [exact H2|]. intros j Hj. rewrite H3 by exact Hj. now apply set_other.
  - destruct (from_dtype c (snd g)) as [de m] eqn:E.
    destruct (IH de (set_thread w i (mk_thread (finished (w i)) (Some (k de)) (todo (w i)))) (fst g, m)) as (sched & HS & HR).
    { rewrite set_same. reflexivity. } { now apply HI. }
    exists (i :: sched). cbn [run_pool scheduled]. unfold advance. rewrite HC. cbn [thread_step]. rewrite E. split; [split; [exact HO|exact HS]|].
    destruct (run_pool v sched _ _) as [w' g']. rewrite set_same in HR. destruct HR as (H1 & H2 & H3).
    split; [exact H1|]. split; [exact H2|]. intros j Hj. rewrite H3 by exact Hj. now apply set_other.
Qed.
Lemma finish_thread v i l : forall w g, todo (w i) = l -> (forall j, current (w j) = None) ->
  exists sched, scheduled locked v sched w g /\ let (w', _) := run_pool v sched w g in
    (forall j, current (w' j) = None) /\ todo (w' i) = [] /\ forall j, j <> i -> w' j = w j.
Proof.
  induction l as [|j0 l IH]; intros w g HT HC.
  - exists []. cbn [run_pool scheduled]. auto.
  - set (w1 := set_thread w i (mk_thread (finished (w i)) (Some (job_proc v j0)) l)).
    destruct (finish_call v i (job_proc v j0) w1 g) as (s1 & HS1 & HR1).
    { unfold w1. now rewrite set_same. } { intros j Hj. unfold w1. rewrite set_other by exact Hj. apply HC. }
    destruct (run_pool v s1 w1 g) as [w2 g2] eqn:E1. destruct HR1 as (H1 & H2 & H3).
    unfold w1 in H2. rewrite set_same in H2. cbn [todo] in H2.
    assert (forall j, j <> i -> w2 j = w j) as HW.
    { intros j Hj. rewrite H3 by exact Hj. unfold w1. now apply set_other. }
    assert (forall j, current (w2 j) = None) as HC2.
    { intros j. destruct (Nat.eq_dec j i) as [->|Hj]; [exact H1|]. rewrite HW by exact Hj. apply HC. }
    destruct (IH w2 g2 H2 HC2) as (s2 & HS2 & HR2). exists (i :: s1 ++ s2). cbn [run_pool scheduled].
    assert (advance v (w i) g = (mk_thread (finished (w i)) (Some (job_proc v j0)) l, g)) as HA.
    { unfold advance. now rewrite HC, HT. }
    rewrite HA. fold w1. rewrite scheduled_app, run_pool_app, E1. split.
    + split; [intros j _; apply HC|]. auto.
    + destruct (run_pool v s2 w2 g2) as [w3 g3]. destruct HR2 as (H4 & H5 & H6). split; [exact H4|]. split; [exact H5|].
      intros j Hj. rewrite H6, HW by exact Hj. reflexivity.
Qed.
Theorem C48_every_call_can_return : forall v jobs n g, exists sched, scheduled locked v sched (all_new jobs) g /\
  forall w' g', run_pool v sched (all_new jobs) g = (w', g') -> forall i, (i < n)%nat ->
    current (w' i) = None /\ todo (w' i) = [].
Proof.
  intros v jobs n g.
  assert (exists sched, scheduled locked v sched (all_new jobs) g /\ let (w', _) := run_pool v sched (all_new jobs) g in
    (forall j, current (w' j) = None) /\ forall i, (i < n)%nat -> todo (w' i) = []) as (sched & HS & HR).
  { induction n as [|n (s1 & HS1 & HR1)].
    - exists []. cbn [run_pool scheduled]. split; [exact I|]. split; [reflexivity|lia].
    - destruct (run_pool v s1 (all_new jobs) g) as [w1 g1] eqn:E. destruct HR1 as [HC HT].
      destruct (finish_thread v n _ w1 g1 eq_refl HC) as (s2 & HS2 & HR2). exists (s1 ++ s2).
      rewrite scheduled_app, run_pool_app, E. split; [auto|]. destruct (run_pool v s2 w1 g1) as [w2 g2].
      destruct HR2 as (H1 & H2 & H3). split; [exact H1|]. intros i Hi. destruct (Nat.eq_dec i n) as [->|Hn]; [exact H2|].
      rewrite H3 by exact Hn. apply HT. lia. }
  exists sched. split; [exact HS|]. intros w' g' HE i Hi. rewrite HE in HR. destruct HR. auto.
Qed.
Print Assumptions C48_every_call_can_return.

(** *** Without a lock there is always a data race *)
Lemma header_text_v1 v s lo hi body tail : good s = true -> len body = lo + 256 * hi -> len body <= mem v ->
  rest s = [147; 78; 85; 77; 80; 89; 1; 0; lo; hi] ++ body ++ tail -> header_text v s = Ok (body, set_rest s tail).
Proof.
  intros G HL HM HR. unfold header_text.
  assert (sread STATIC_HEADER_LENGTH s =
          ([147; 78; 85; 77; 80; 89; 1; 0; lo; hi], set_rest s (body ++ tail))) as ->.
  { apply (sread_app s [147; 78; 85; 77; 80; 89; 1; 0; lo; hi] (body ++ tail) G HR). }
  match goal with |- context [if dbg v then ?c else _] => assert ((if dbg v then c else Ok tt) = Ok tt) as ->
    by (destruct (dbg v); reflexivity) end.
  assert (cells 10 [147; 78; 85; 77; 80; 89; 1; 0; lo; hi] = map Some [147; 78; 85; 77; 80; 89; 1; 0; lo; hi]) as -> by reflexivity.
  cbn [obind and_then cell_is cell map nth Z.eqb Pos.eqb].
  rewrite <- HL. destruct (len body >? mem v) eqn:E; [lia|].
  rewrite (sread_app (set_rest s (body ++ tail)) body tail) by auto.
  rewrite Z.sub_diag. cbn [zrepeat Z.to_nat repeat]. now rewrite app_nil_r, set_rest_set_rest.
Qed.
Lemma r_char_eat v c s t : good s = true -> rest s = c :: t -> 0 <= c -> r_char v c s = Done (Ok tt) (set_rest s t).
Proof.
  intros G R Hc. unfold r_char, rbind, rstream. rewrite (sget_cons _ _ _ G R). cbn [pbind].
  destruct (dbg v); [|reflexivity]. rewrite Z.eqb_refl. now replace (c =? -1) with false by lia.
Qed.
Lemma parse_starts_with_a_fill v x : exists b k, parse_thread v (123 :: 39 :: 100 :: x) = Fill b k /\ b <> [].
Proof.
  assert (forall f h s, good s = true -> rest s = 39 :: 100 :: x -> exists b k, r_entries v (S f) h s = Fill b k /\ b <> []) as H.
  { intros f h s G R. cbn [r_entries]. unfold rbind at 1, rstream at 1.
    rewrite (speek_cons s 39 (100 :: x) G R). cbn [pbind Z.eqb Pos.eqb].
    unfold rbind at 1, r_entry, rbind at 1, r_skip_ws at 1, skip_ws.
    cbn [skip_ws_loop]. rewrite (speek_cons s 39 (100 :: x) G R). change (is_space 39) with false. cbn [pbind].
    unfold rbind at 1, r_string, rbind at 1. rewrite (r_char_eat v 39 s (100 :: x) G R) by lia.
    set (s' := set_rest s (100 :: x)). cbn [pbind]. unfold rbind at 1, r_read_to, rbind at 1, rstream at 1.
    rewrite (speek_cons s' 100 x) by (exact G || reflexivity). cbn [pbind Z.eqb Pos.eqb].
    destruct (sgetbuf BUFFER_SIZE 39 s') as [got s2]. cbn [pbind]. eexists _, _. split; [reflexivity|].
    now destruct got. }
  unfold parse_thread, rbind at 1.
  rewrite (r_char_eat v 123 (open_str (123 :: 39 :: 100 :: x)) (39 :: 100 :: x)) by (reflexivity || lia). cbn [pbind].
  now apply H.
Qed.
(** Threads [i] and [j] each load, as their first call, a file libnpy saved: whatever the
    arrays and whatever the other threads do, two steps are enough to bring them to where
    both are about to write BUFFER. *)
Theorem C48_loads_race : forall v jobs g i j v1 v2 t1 t2 e1 e2 d1 d2 s1 s2 l1 l2 file1 file2 tail1 tail2,
  i <> j -> 246 <= mem v ->
  api_tensor t1 -> save_fits v1 t1 e1 -> save v1 t1 e1 = Ok file1 -> good s1 = true -> rest s1 = file1 ++ tail1 ->
  api_tensor t2 -> save_fits v2 t2 e2 -> save v2 t2 e2 = Ok file2 -> good s2 = true -> rest s2 = file2 ++ tail2 ->
  jobs i = JLoad d1 s1 :: l1 -> jobs j = JLoad d2 s2 :: l2 ->
  data_race (fst (run_pool v [i; j] (all_new jobs) g)).
Proof.
  intros v jobs g i j v1 v2 t1 t2 e1 e2 d1 d2 s1 s2 l1 l2 file1 file2 tail1 tail2 Hij HM Ht1 HF1 HS1 G1 R1 Ht2 HF2 HS2 G2 R2 J1 J2.
  assert (forall v0 t e d s file tail, api_tensor t -> save_fits v0 t e -> save v0 t e = Ok file -> good s = true ->
          rest s = file ++ tail -> exists b k, job_proc v (JLoad d s) = Fill b k /\ b <> []) as HJ.
  { intros v0 t e d s file tail Ht [HF HL] HS G R. pose proof (api_tensor_wf _ Ht) as (Hs & _).
    rewrite save_file in HS. injection HS as <-. rewrite <- app_assoc in R.
    set (code := array_descr (t_dtype t) (means_big (host_big v0) e) (t_values t)) in *.
    destruct (write_npy_header_shape code (t_fortran t) (t_shape t)) as (pad & Hp & Hmod & HW).
    pose proof (dictionary_python code (t_fortran t) (t_shape t) Hs) as HD. rewrite <- HD in HF. rewrite HW in R.
    set (D := dictionary code (t_fortran t) (t_shape t)) in *. pose proof (len_nonneg _ D) as HD0.
    assert (len D + pad + 1 <= 246) as HB.
    { apply Z.mod_divide in Hmod; [|lia]. destruct Hmod as [k Hk]. lia. }
    unfold job_proc. erewrite (header_text_v1 v s (u8 (len D + pad + 1)) 0 (D ++ zrepeat 32 pad ++ [10])); [|exact G| | |].
    2: { lens. unfold u8. rewrite Z.mod_small by lia. lia. }
    2: { lens. lia. }
    2: { rewrite R. rewrite <- !app_assoc. reflexivity. }
    match goal with |- context [parse_thread v ?x] => assert (exists y, x = 123 :: 39 :: 100 :: y) as [y ->] end.
    { eexists. unfold D, dictionary. rewrite <- !app_assoc. reflexivity. }
    destruct (parse_starts_with_a_fill v y) as (b & k & -> & Hb). cbn [pbind]. eauto. }
  destruct (HJ v1 t1 e1 d1 s1 file1 tail1) as (b1 & k1 & HP1 & HB1); auto.
  destruct (HJ v2 t2 e2 d2 s2 file2 tail2) as (b2 & k2 & HP2 & HB2); auto.
  assert (forall k q l, jobs k = q :: l -> advance v (all_new jobs k) g = (mk_thread [] (Some (job_proc v q)) l, g)) as HA.
  { intros k q l HK. unfold all_new, new_thread, advance. cbn [current todo finished]. now rewrite HK. }
  cbn [run_pool]. rewrite (HA i _ _ J1), set_other, (HA j _ _ J2) by auto. cbn [fst].
  exists i, j. split; [exact Hij|]. split.
  - exists b1, k1. rewrite set_other, set_same by auto. cbn [current]. now rewrite HP1.
  - left. exists b2, k2. rewrite set_same. cbn [current]. now rewrite HP2.
Qed.
Print Assumptions C48_loads_race.

(** Three threads: two load the same int32 array of shape (3, 4) and one peeks at a (7, 8)
    header and then at an empty file; the first two are inside their calls together. *)
Definition file34 : bytes := write_npy_header (str "<i4") false [3; 4] ++ zrepeat 1 48.
Definition file78 : bytes := write_npy_header (str "<i4") false [7; 8].
Definition three (i : nat) : list job :=
  match i with
  | 0%nat | 1%nat => [JLoad INT32 (open_str file34)]
  | 2%nat => [JPeek (open_str file78); JPeek (open_str [])]
  | _ => []
  end.
Definition three_turns : list nat := ([0; 0; 0; 2; 2; 2; 1; 1; 1; 0; 0; 1; 1; 2; 2; 2; 0; 0; 0; 1; 1; 1]
   ++ repeat 0 30 ++ repeat 1 30 ++ repeat 2 30)%nat.
Definition release : env := mk_env false false (2 ^ 40).
Fixpoint apart_below (n : nat) (v : env) (sched : list nat) (w : pool) (g : globals) : bool :=
  match sched with
  | [] => true
  | i :: r => (i <? n)%nat &&
      forallb (fun j => (j =? i)%nat || match current (w j) with Some p => negb (mid_token p) | None => true end) (seq 0 n) &&
      let (t, g') := advance v (w i) g in apart_below n v r (set_thread w i t) g'
  end.
Lemma apart_below_ok n v sched : forall w g, (forall i, (n <= i)%nat -> current (w i) = None) ->
  apart_below n v sched w g = true -> scheduled tokens_apart v sched w g.
Proof.
  induction sched as [|i r IH]; intros w g HW HB; cbn [apart_below scheduled] in *; [exact I|].
  apply andb_prop in HB as [HB HR]. apply andb_prop in HB as [HI HF]. apply Nat.ltb_lt in HI. rewrite forallb_forall in HF. split.
  - intros j Hj. destruct (Nat.lt_ge_cases j n) as [HL|HL]; [|now rewrite (HW j HL)].
    specialize (HF j). rewrite in_seq in HF. specialize (HF ltac:(lia)). apply Nat.eqb_neq in Hj. rewrite Hj in HF. cbn [orb] in HF.
    destruct (current (w j)) as [p|]; [|exact I]. now destruct (mid_token p).
  - destruct (advance v (w i) g) as [t g']. apply IH; [|exact HR]. intros j Hj. rewrite set_other by lia. now apply HW.
Qed.
Example C48_three_threads : forall buf, let g := (buf, DTYPE_MAP) in
  scheduled tokens_apart release three_turns (all_new three) g /\
  let w := fst (run_pool release three_turns (all_new three) g) in
  finished (w 0%nat) = [Ok (Tensor_of (mk_tensor [3; 4] [4; 1] false INT32 (repeat (Scalar 16843009) 12)))] /\
  finished (w 1%nat) = finished (w 0%nat) /\
  finished (w 2%nat) = [Ok (Header_of (mk_header (Some INT32) (Some LITTLE) (Some false) [7; 8] (Some 0))); Undef UninitRead].
Proof.
  intros buf. split; [|split; [|split]].
  - apply (apart_below_ok 3); [|vm_compute; reflexivity]. intros i Hi. unfold all_new. reflexivity.
  - vm_compute. reflexivity.
  - vm_compute. reflexivity.
  - vm_compute. reflexivity.
Qed.
