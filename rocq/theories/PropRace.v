(** C48: header parses in two threads. *)
From Coq Require Import String ZArith List Bool Lia.
From Verif Require Import Base Stream BaseFacts Dtype Values Spec ValuesFacts Header HeaderFacts ParseFacts ParserInv ParserRel Race.
Import ListNotations.
Open Scope Z_scope.

(** A thread run alone to its end. *)
Fixpoint solo {A} (p : proc A) (g : globals) : outcome A * istream * globals :=
  match p with
  | Done o s => (o, s, g)
  | Fill b k => solo k (blit b (fst g), snd g)
  | Take n k => solo (k (ztake n (fst g))) g
  | Lookup c k => solo (k (fst (from_dtype c (snd g)))) (fst g, snd (from_dtype c (snd g)))
  end.
Lemma solo_bind {A B} (p : proc A) (f : A -> R B) : forall g,
  solo (pbind p f) g = match solo p g with
                       | (Ok a, s, g') => solo (f a s) g'
                       | (Throw e, s, g') => (Throw e, s, g')
                       | (AssertFail, s, g') => (AssertFail, s, g')
                       | (Undef u, s, g') => (Undef u, s, g')
                       end.
Proof. induction p as [o s|b k IH|n k IH|c k IH]; intros g; cbn [pbind solo]; auto. now destruct o. Qed.

(** The process is the parser. *)
Definition models {A} (r : R A) (m : M pst A) : Prop := forall s g,
  solo (r s) g = let '(o, p) := m (mk_pst s (fst g) (snd g)) in (o, p_in p, (p_buf p, p_map p)).
Lemma models_bind {A B} (r : R A) (m : M pst A) (f : A -> R B) (k : A -> M pst B) :
  models r m -> (forall a, models (f a) (k a)) -> models (rbind r f) (bind m k).
Proof.
  intros H1 H2 s g. unfold rbind, bind. rewrite solo_bind, H1.
  destruct (m (mk_pst s (fst g) (snd g))) as [o p]. destruct o; auto. rewrite H2. cbn [fst snd]. now destruct p.
Qed.
Lemma models_ret {A} (a : A) : models (rret a) (ret a).
Proof. intros s [b m]. reflexivity. Qed.
Lemma models_lift {A} (o : outcome A) : models (rlift o) (lift o).
Proof. intros s [b m]. reflexivity. Qed.
Lemma models_stream (f : istream -> Z * istream) : models (rstream f) (with_in f).
Proof. intros s [b m]. unfold rstream, with_in. cbn [p_in p_buf p_map fst snd]. destruct (f s) as [a s']. reflexivity. Qed.
Lemma models_peek : models (rstream speek) p_peek. Proof. apply models_stream. Qed.
Create HintDb race.
#[export] Hint Resolve models_ret models_lift models_stream models_peek : race.
Lemma models_char v c : models (r_char v c) (p_char v c).
Proof.
  apply models_bind; [apply models_stream|]. intros x. destruct (dbg v); [destruct (x =? -1); [|destruct (x =? c)]|]; auto with race.
Qed.
Lemma models_skip : models r_skip_ws p_skip_ws.
Proof. intros s [b m]. unfold r_skip_ws, p_skip_ws. cbn [p_in p_buf p_map fst snd]. destruct (skip_ws s). reflexivity. Qed.
Lemma models_lit v x : models (r_lit v x) (p_lit v x).
Proof. intros s [b m]. unfold r_lit, p_lit. cbn [p_in p_buf p_map fst snd]. destruct (sread (len x) s). reflexivity. Qed.
Lemma models_read_to v c : models (r_read_to v c) (p_read_to v c).
Proof.
  apply models_bind; [apply models_stream|]. intros x. destruct (x =? c); [apply models_ret|].
  intros s [b m]. cbn [p_in p_buf p_map fst snd]. destruct (sgetbuf BUFFER_SIZE c s) as [got s'].
  cbn [solo fst snd]. destruct (dbg v && negb (len got <? BUFFER_SIZE)); reflexivity.
Qed.
#[export] Hint Resolve models_char models_skip models_lit models_read_to : race.
Lemma models_string v : models (r_string v) (p_string v).
Proof. repeat (apply models_bind; [auto with race|intros]). auto with race. Qed.
Lemma models_bool v : models (r_bool v) (p_bool v).
Proof.
  apply models_bind; [auto with race|]. intros c. destruct (c =? 84).
  - apply models_bind; auto with race.
  - apply models_bind; [auto with race|]. intros c2. destruct (c2 =? 70); [apply models_bind|]; auto with race.
Qed.
Lemma models_shape v : models (r_shape v) (p_shape v).
Proof. repeat (apply models_bind; [auto with race|intros]). auto with race. Qed.
Lemma models_descr c : models (r_descr c) (p_descr c).
Proof.
  destruct c as [|c0 t]; [apply models_lift|]. unfold r_descr, p_descr.
  destruct (match t with c1 :: _ => c1 =? 85 | [] => false end); [apply models_bind; auto with race|].
  intros s [b m]. cbn [solo fst snd p_map]. destruct (from_dtype (c0 :: t) m) as [[d e] m']. reflexivity.
Qed.
#[export] Hint Resolve models_string models_bool models_shape models_descr : race.
Lemma models_entry v h : models (r_entry v h) (p_entry v h).
Proof.
  apply models_bind; [auto with race|intros _]. apply models_bind; [auto with race|intros key].
  do 3 (apply models_bind; [auto with race|intros _]).
  apply models_bind; [|intros h'; repeat (apply models_bind; [auto with race|intros _]); auto with race].
  destruct (beq key (str "descr")); [|destruct (beq key (str "fortran_order")); [|destruct (beq key (str "shape"))]].
  - apply models_bind; [auto with race|intros code]. apply models_bind; [auto with race|]. intros [[d e] n]. auto with race.
  - apply models_bind; auto with race.
  - apply models_bind; auto with race.
  - auto with race.
Qed.
Lemma models_entries v fuel : forall h, models (r_entries v fuel h) (p_entries v fuel h).
Proof.
  induction fuel as [|f IH]; intros h; [apply models_lift|]. apply models_bind; [auto with race|]. intros c.
  destruct (c =? 125); [apply models_bind; auto with race|]. apply models_bind; [apply models_entry|exact IH].
Qed.
Lemma thread_solo v d g : let '(o, _, g') := solo (parse_thread v d) g in parse_dictionary v d g = (o, g').
Proof.
  pose proof (models_bind _ _ _ _ (models_char v 123) (fun _ => models_entries v (S (length d)) header_uninit) (open_str d) g) as H.
  unfold parse_thread, parse_dictionary. rewrite H.
  destruct (bind (p_char v 123) (fun _ => p_entries v (S (length d)) header_uninit) (mk_pst (open_str d) (fst g) (snd g))) as [o p].
  reflexivity.
Qed.

(** *** One parse at a time *)
Lemma run_app {A B} (a b : list bool) : forall (p : proc A) (q : proc B) g,
  run (a ++ b) p q g = let '(p', q', g') := run a p q g in run b p' q' g'.
Proof.
  induction a as [|x a IH]; intros p q g; [reflexivity|]. cbn [app run]. destruct x.
  - destruct (thread_step q g) as [q' g']. apply IH.
  - destruct (thread_step p g) as [p' g']. apply IH.
Qed.
Lemma run_first {A B} n : forall (p : proc A) (q : proc B) g o s q' g',
  run (repeat false n) p q g = (Done o s, q', g') -> solo p g = (o, s, g') /\ q' = q.
Proof.
  induction n as [|n IH]; intros p q g o s q' g'; cbn [repeat run].
  - intros [= -> -> ->]. auto.
  - destruct p as [o1 s1|b k|m k|c k]; cbn [thread_step]; intros H.
    + now apply IH in H.
    + now apply IH in H.
    + now apply IH in H.
    + destruct (from_dtype c (snd g)) as [de m] eqn:E. apply IH in H. cbn [solo]. now rewrite E.
Qed.
Lemma run_second {A B} n : forall (p : proc A) (q : proc B) g o s p' g',
  run (repeat true n) p q g = (p', Done o s, g') -> solo q g = (o, s, g') /\ p' = p.
Proof.
  induction n as [|n IH]; intros p q g o s p' g'; cbn [repeat run].
  - intros [= -> -> ->]. auto.
  - destruct q as [o1 s1|b k|m k|c k]; cbn [thread_step]; intros H.
    + now apply IH in H.
    + now apply IH in H.
    + now apply IH in H.
    + destruct (from_dtype c (snd g)) as [de m] eqn:E. apply IH in H. cbn [solo]. now rewrite E.
Qed.
Lemma solo_map_ok {A} (p : proc A) : forall g, map_ok (snd g) -> map_ok (snd (snd (solo p g))).
Proof.
  induction p as [o s|b k IH|n k IH|c k IH]; intros g H; cbn [solo]; auto.
  apply IH. cbn [snd]. now apply map_ok_step.
Qed.
Lemma run_first_done {A B} (p : proc A) : forall (q : proc B) g, exists n o s g', run (repeat false n) p q g = (Done o s, q, g').
Proof.
  induction p as [o s|b k IH|n k IH|c k IH]; intros q g.
  - exists 0%nat, o, s, g. reflexivity.
  - destruct (IH q (blit b (fst g), snd g)) as (n & o & s & g' & H). exists (S n), o, s, g'. exact H.
  - destruct (IH (ztake n (fst g)) q g) as (m & o & s & g' & H). exists (S m), o, s, g'. exact H.
  - destruct (from_dtype c (snd g)) as [de m] eqn:E. destruct (IH de q (fst g, m)) as (n & o & s & g' & H).
    exists (S n), o, s, g'. cbn [repeat run thread_step]. rewrite E. exact H.
Qed.
Lemma run_second_done {A B} (q : proc B) : forall (p : proc A) g, exists n o s g', run (repeat true n) p q g = (p, Done o s, g').
Proof.
  induction q as [o s|b k IH|n k IH|c k IH]; intros p g.
  - exists 0%nat, o, s, g. reflexivity.
  - destruct (IH p (blit b (fst g), snd g)) as (n & o & s & g' & H). exists (S n), o, s, g'. exact H.
  - destruct (IH (ztake n (fst g)) p g) as (m & o & s & g' & H). exists (S m), o, s, g'. exact H.
  - destruct (from_dtype c (snd g)) as [de m] eqn:E. destruct (IH de p (fst g, m)) as (n & o & s & g' & H).
    exists (S n), o, s, g'. cbn [repeat run thread_step]. rewrite E. exact H.
Qed.

(** One after the other, in either order, from any globals earlier parses left: both
    threads finish, and each with the result it has on its own. *)
Theorem C48_one_at_a_time : forall v d1 d2 g, prior_parses g ->
  let mine d := fst (parse_dictionary v d g) in
  let good_order sched :=
    exists s1 s2 g', run sched (parse_thread v d1) (parse_thread v d2) g = (Done (mine d1) s1, Done (mine d2) s2, g') in
  (exists n m, good_order (repeat false n ++ repeat true m)) /\
  (exists n m, good_order (repeat true n ++ repeat false m)) /\
  (forall n m o1 o2 s1 s2 g',
     run (repeat false n ++ repeat true m) (parse_thread v d1) (parse_thread v d2) g = (Done o1 s1, Done o2 s2, g') \/
     run (repeat true n ++ repeat false m) (parse_thread v d1) (parse_thread v d2) g = (Done o1 s1, Done o2 s2, g') ->
     o1 = mine d1 /\ o2 = mine d2).
Proof.
  intros v d1 d2 g Hg mine good_order. apply prior_map_ok in Hg.
  assert (forall d g', map_ok (snd g') -> fst (fst (solo (parse_thread v d) g')) = mine d) as HS.
  { intros d g' H'. pose proof (thread_solo v d g') as HT. destruct (solo (parse_thread v d) g') as [[o s] g2]. cbn [fst].
    unfold mine. rewrite (parse_dictionary_indep v d g g') by assumption. now rewrite HT. }
  assert (forall d g' o s g2, map_ok (snd g') -> solo (parse_thread v d) g' = (o, s, g2) -> o = mine d /\ map_ok (snd g2)) as HS2.
  { intros d g' o s g2 H' HE. split; [rewrite <- (HS d g' H'), HE; reflexivity|].
    pose proof (solo_map_ok (parse_thread v d) g' H') as HX. rewrite HE in HX. exact HX. }
  split; [|split].
  - destruct (run_first_done (parse_thread v d1) (parse_thread v d2) g) as (n & o & s & g1 & H1).
    destruct (run_first _ _ _ _ _ _ _ _ H1) as [E1 _]. destruct (HS2 _ _ _ _ _ Hg E1) as [-> Hg1].
    destruct (run_second_done (parse_thread v d2) (Done (mine d1) s) g1) as (m & o2 & s2 & g2 & H2).
    destruct (run_second _ _ _ _ _ _ _ _ H2) as [E2 _]. destruct (HS2 _ _ _ _ _ Hg1 E2) as [-> _].
    exists n, m, s, s2, g2. rewrite run_app, H1. exact H2.
  - destruct (run_second_done (parse_thread v d2) (parse_thread v d1) g) as (n & o & s & g1 & H1).
    destruct (run_second _ _ _ _ _ _ _ _ H1) as [E1 _]. destruct (HS2 _ _ _ _ _ Hg E1) as [-> Hg1].
    destruct (run_first_done (parse_thread v d1) (Done (mine d2) s) g1) as (m & o2 & s2 & g2 & H2).
    destruct (run_first _ _ _ _ _ _ _ _ H2) as [E2 _]. destruct (HS2 _ _ _ _ _ Hg1 E2) as [-> _].
    exists n, m, s2, s, g2. rewrite run_app, H1. exact H2.
  - intros n m o1 o2 s1 s2 g' [H|H]; rewrite run_app in H.
    + destruct (run (repeat false n) (parse_thread v d1) (parse_thread v d2) g) as [[p q] g1] eqn:E1.
      destruct (run_second _ _ _ _ _ _ _ _ H) as [E2 <-].
      destruct (run_first _ _ _ _ _ _ _ _ E1) as [E3 ->]. destruct (HS2 _ _ _ _ _ Hg E3) as [-> Hg1].
      destruct (HS2 _ _ _ _ _ Hg1 E2) as [-> _]. auto.
    + destruct (run (repeat true n) (parse_thread v d1) (parse_thread v d2) g) as [[p q] g1] eqn:E1.
      destruct (run_first _ _ _ _ _ _ _ _ H) as [E2 <-].
      destruct (run_second _ _ _ _ _ _ _ _ E1) as [E3 ->]. destruct (HS2 _ _ _ _ _ Hg E3) as [-> Hg1].
      destruct (HS2 _ _ _ _ _ Hg1 E2) as [-> _]. auto.
Qed.
Print Assumptions C48_one_at_a_time.

(** *** Interference *)
(** The dictionaries libnpy writes for int32 arrays of shapes (3, 4) and (7, 8). *)
Definition dict34 : bytes := dictionary (str "<i4") false [3; 4].
Definition dict78 : bytes := dictionary (str "<i4") false [7; 8].
(** Both threads run until they have filled BUFFER with their shape, then both take
    their token: the first gets the other array's shape, and no error is raised. *)
Theorem C48_interference : forall v buf, exists sched s1 s2 g' h1 h2,
  run sched (parse_thread v dict34) (parse_thread v dict78) (buf, DTYPE_MAP) = (Done (Ok h1) s1, Done (Ok h2) s2, g') /\
  h_shape h1 = [7; 8] /\ h_shape h2 = [7; 8] /\
  (exists h, fst (parse_dictionary v dict34 (buf, DTYPE_MAP)) = Ok h /\ h_shape h = [3; 4]).
Proof.
  intros v buf. exists (repeat false 12 ++ repeat true 12 ++ [false; true]).
  destruct v as [hb db mm]. destruct db.
  - eexists _, _, _, _, _. split; [vm_compute; reflexivity|]. split; [reflexivity|]. split; [reflexivity|].
    eexists. split; [vm_compute; reflexivity|reflexivity].
  - eexists _, _, _, _, _. split; [vm_compute; reflexivity|]. split; [reflexivity|]. split; [reflexivity|].
    eexists. split; [vm_compute; reflexivity|reflexivity].
Qed.
Print Assumptions C48_interference.

(** *** Keeping each token together is enough *)
Inductive fresh {A} : proc A -> Prop :=
| fresh_done o s : fresh (Done o s)
| fresh_token b n k : n <= len b \/ (forall t t', k t = k t') -> (forall t, fresh (k t)) -> fresh (Fill b (Take n k))
| fresh_fill b k : fresh k -> mid_token k = false -> fresh (Fill b k)
| fresh_lookup c k : (forall d, fresh (k d)) -> fresh (Lookup c k).
Lemma fresh_not_mid {A} (p : proc A) : fresh p -> mid_token p = false.
Proof. now destruct 1. Qed.
Lemma fresh_bind {A B} (p : proc A) (f : A -> R B) : fresh p -> (forall a s, fresh (f a s)) -> fresh (pbind p f).
Proof.
  intros H Hf. induction H as [o s|b n k Hn Hk IH|b k Hk IH Hm|c k Hk IH]; cbn [pbind].
  - destruct o; auto using fresh_done.
  - apply fresh_token; [|exact IH]. destruct Hn as [Hn|Hn]; [now left|right]. intros t t'. now rewrite (Hn t t').
  - apply fresh_fill; [exact IH|]. now apply fresh_not_mid.
  - now apply fresh_lookup.
Qed.
Definition freshr {A} (r : R A) : Prop := forall s, fresh (r s).
Lemma freshr_bind {A B} (r : R A) (f : A -> R B) : freshr r -> (forall a, freshr (f a)) -> freshr (rbind r f).
Proof. intros H1 H2 s. apply fresh_bind; [apply H1|]. intros a s'. apply H2. Qed.
Lemma freshr_ret {A} (a : A) : freshr (rret a). Proof. intros s. apply fresh_done. Qed.
Lemma freshr_lift {A} (o : outcome A) : freshr (rlift o). Proof. intros s. apply fresh_done. Qed.
Lemma freshr_stream {A} (f : istream -> A * istream) : freshr (rstream f).
Proof. intros s. unfold rstream. destruct (f s). apply fresh_done. Qed.
#[export] Hint Resolve freshr_ret freshr_lift freshr_stream : race.
Lemma freshr_char v c : freshr (r_char v c).
Proof.
  apply freshr_bind; [auto with race|]. intros x. destruct (dbg v); [destruct (x =? -1); [|destruct (x =? c)]|]; auto with race.
Qed.
Lemma freshr_skip : freshr r_skip_ws.
Proof. intros s. unfold r_skip_ws. destruct (skip_ws s). apply fresh_done. Qed.
Lemma freshr_lit v x : dbg v = false -> freshr (r_lit v x).
Proof.
  intros Hv s. unfold r_lit. rewrite Hv. destruct (sread (len x) s). apply fresh_token; [now right|]. intros. apply fresh_done.
Qed.
Lemma freshr_read_to v c : freshr (r_read_to v c).
Proof.
  apply freshr_bind; [auto with race|]. intros x. destruct (x =? c); [apply freshr_ret|]. intros s.
  destruct (sgetbuf BUFFER_SIZE c s) as [got s']. destruct (dbg v && negb (len got <? BUFFER_SIZE)).
  - apply fresh_fill; [apply fresh_done|reflexivity].
  - apply fresh_token; [|intros; apply fresh_done]. left. rewrite len_app. pose proof (len_nonneg _ got). change (len [0]) with 1. lia.
Qed.
#[export] Hint Resolve freshr_char freshr_skip freshr_lit freshr_read_to : race.
Lemma freshr_string v : freshr (r_string v).
Proof. repeat (apply freshr_bind; [auto with race|intros]). auto with race. Qed.
Lemma freshr_shape v : freshr (r_shape v).
Proof. repeat (apply freshr_bind; [auto with race|intros]). auto with race. Qed.
Lemma freshr_bool v : dbg v = false -> freshr (r_bool v).
Proof.
  intros Hv. apply freshr_bind; [auto with race|]. intros c. destruct (c =? 84).
  - apply freshr_bind; auto with race.
  - apply freshr_bind; [auto with race|]. intros c2. destruct (c2 =? 70); [apply freshr_bind|]; auto with race.
Qed.
Lemma freshr_descr c : freshr (r_descr c).
Proof.
  destruct c as [|c0 t]; [apply freshr_lift|]. unfold r_descr.
  destruct (match t with c1 :: _ => c1 =? 85 | [] => false end); [apply freshr_bind; auto with race|].
  intros s. apply fresh_lookup. intros. apply fresh_done.
Qed.
#[export] Hint Resolve freshr_string freshr_shape freshr_bool freshr_descr : race.
Lemma freshr_entry v h : dbg v = false -> freshr (r_entry v h).
Proof.
  intros Hv. apply freshr_bind; [auto with race|intros _]. apply freshr_bind; [auto with race|intros key].
  do 3 (apply freshr_bind; [auto with race|intros _]).
  apply freshr_bind; [|intros h'; repeat (apply freshr_bind; [auto with race|intros _]); auto with race].
  destruct (beq key (str "descr")); [|destruct (beq key (str "fortran_order")); [|destruct (beq key (str "shape"))]].
  - apply freshr_bind; [auto with race|intros code]. apply freshr_bind; [auto with race|]. intros [[d e] n]. auto with race.
  - apply freshr_bind; auto with race.
  - apply freshr_bind; auto with race.
  - auto with race.
Qed.
Lemma freshr_entries v fuel : dbg v = false -> forall h, freshr (r_entries v fuel h).
Proof.
  intros Hv. induction fuel as [|f IH]; intros h; [apply freshr_lift|]. apply freshr_bind; [auto with race|]. intros c.
  destruct (c =? 125); [apply freshr_bind; auto with race|]. apply freshr_bind; [now apply freshr_entry|exact IH].
Qed.
Lemma fresh_thread v d : dbg v = false -> fresh (parse_thread v d).
Proof. intros Hv. apply (freshr_bind (r_char v 123)); [auto with race|]. intros _. now apply freshr_entries. Qed.

(** The result a fresh thread has to reach, whatever the buffer. *)
Definition due {A} (p : proc A) (o : outcome A) : Prop :=
  fresh p /\ forall g, map_ok (snd g) -> fst (fst (solo p g)) = o.
Definition due_mid {A} (p : proc A) (o : outcome A) (g : globals) : Prop :=
  exists n k, p = Take n k /\ due (k (ztake n (fst g))) o.
Lemma ztake_blit n (b old : bytes) : n <= len b -> ztake n (blit b old) = ztake n b.
Proof.
  intros Hn. unfold blit. generalize (zdrop (len b) old). intros l. revert n Hn. induction b as [|x b IH]; intros n Hn; cbn [app ztake].
  - change (len (@nil Z)) with 0 in Hn. apply ztake_0. lia.
  - destruct (n <=? 0); [reflexivity|]. f_equal. rewrite len_cons in Hn. apply IH. lia.
Qed.
Lemma fresh_indep {A} (p : proc A) : fresh p -> forall g g', map_ok (snd g) -> map_ok (snd g') ->
  fst (fst (solo p g)) = fst (fst (solo p g')).
Proof.
  induction 1 as [o s|b n k Hn Hk IH|b k Hk IH Hm|c k Hk IH]; intros g g' H1 H2; cbn [solo fst snd]; auto.
  - destruct Hn as [Hn|Hn].
    + rewrite !ztake_blit by exact Hn. apply IH; assumption.
    + rewrite (Hn (ztake n (blit b (fst g))) (ztake n (blit b (fst g')))). apply IH; assumption.
  - rewrite (H1 c), <- (H2 c). apply IH; cbn [snd]; now apply map_ok_step.
Qed.
Lemma due_fresh {A} (p : proc A) g : fresh p -> map_ok (snd g) -> due p (fst (fst (solo p g))).
Proof. intros H Hg. split; [exact H|]. intros g' Hg'. now apply fresh_indep. Qed.
Lemma due_step {A} (p : proc A) o g p' g' : due p o \/ due_mid p o g -> map_ok (snd g) -> thread_step p g = (p', g') ->
  map_ok (snd g') /\ (due p' o \/ due_mid p' o g').
Proof.
  intros HD Hg HS. destruct HD as [[HF HD]|(n & k & -> & HD)].
  - destruct HF as [o1 s|b n k Hn Hk|b k Hk Hm|c k Hk]; cbn [thread_step] in HS.
    + injection HS as <- <-. split; [exact Hg|]. left. split; [apply fresh_done|exact HD].
    + injection HS as <- <-. split; [exact Hg|]. right. exists n, k. split; [reflexivity|]. split; [apply Hk|]. cbn [fst].
      intros g' Hg'. rewrite <- (HD g Hg). cbn [solo fst snd]. apply fresh_indep; auto.
    + injection HS as <- <-. split; [exact Hg|]. left. split; [exact Hk|]. intros g' Hg'.
      rewrite <- (HD g Hg). cbn [solo]. now apply fresh_indep.
    + destruct (from_dtype c (snd g)) as [de m] eqn:E. injection HS as <- <-.
      assert (map_ok m) as Hm by (change m with (snd (de, m)); rewrite <- E; now apply map_ok_step).
      split; [exact Hm|]. left. split; [apply Hk|]. intros g' Hg'. rewrite <- (HD g Hg). cbn [solo]. rewrite E. cbn [fst snd].
      now apply fresh_indep.
  - cbn [thread_step] in HS. injection HS as <- <-. split; [exact Hg|]. now left.
Qed.
Lemma due_keep {A} (p : proc A) o g g' : due p o \/ due_mid p o g -> mid_token p = false -> due p o \/ due_mid p o g'.
Proof. intros [H|(n & k & -> & H)]; [now left|discriminate]. Qed.
Lemma run_due {A B} sched : forall (p : proc A) (q : proc B) g o1 o2,
  due p o1 \/ due_mid p o1 g -> due q o2 \/ due_mid q o2 g -> map_ok (snd g) -> tokens_together sched p q g ->
  let '(p', q', g') := run sched p q g in (due p' o1 \/ due_mid p' o1 g') /\ (due q' o2 \/ due_mid q' o2 g').
Proof.
  induction sched as [|x sched IH]; intros p q g o1 o2 H1 H2 Hg HT; cbn [run tokens_together] in *; [auto|].
  destruct x; destruct HT as [HM HT].
  - destruct (thread_step q g) as [q' g'] eqn:E. destruct (due_step _ _ _ _ _ H2 Hg E) as [Hg' H2'].
    apply IH; auto. now apply due_keep with g.
  - destruct (thread_step p g) as [p' g'] eqn:E. destruct (due_step _ _ _ _ _ H1 Hg E) as [Hg' H1'].
    apply IH; auto. now apply due_keep with g.
Qed.
(** With assertions compiled out: under every schedule that never switches between a
    fill of BUFFER and the copy that follows it, a thread that finishes has the result
    it has on its own. *)
Theorem C48_tokens_kept_together : forall v d1 d2 g sched p1 p2 g', dbg v = false -> prior_parses g ->
  tokens_together sched (parse_thread v d1) (parse_thread v d2) g ->
  run sched (parse_thread v d1) (parse_thread v d2) g = (p1, p2, g') ->
  (forall o s, p1 = Done o s -> o = fst (parse_dictionary v d1 g)) /\
  (forall o s, p2 = Done o s -> o = fst (parse_dictionary v d2 g)).
Proof.
  intros v d1 d2 g sched p1 p2 g' Hv Hg HT HR. apply prior_map_ok in Hg.
  assert (forall d, due (parse_thread v d) (fst (parse_dictionary v d g))) as HD.
  { intros d. pose proof (due_fresh (parse_thread v d) g (fresh_thread v d Hv) Hg) as H.
    pose proof (thread_solo v d g) as HS. destruct (solo (parse_thread v d) g) as [[o s] g2]. rewrite HS. exact H. }
  pose proof (run_due sched _ _ g _ _ (or_introl (HD d1)) (or_introl (HD d2)) Hg HT) as H. rewrite HR in H.
  assert (forall A (p : proc A) o x s, due p o \/ due_mid p o g' -> p = Done x s -> x = o) as HX.
  { intros A p o x s [[_ H']|(n & k & -> & _)] HP; [|discriminate]. subst p. exact (H' g Hg). }
  destruct H as [H1 H2]. split; intros o s HP; eapply HX; eauto.
Qed.
Print Assumptions C48_tokens_kept_together.
(** Such schedules exist beyond running one parse after the other: the two parses take
    turns, one token each. *)
Definition turns : list bool :=
  [false; false; true; true; false; false; false; true; true; true] ++
  [false; false; true; true; false; false; true; true; false; false; true; true; false; false; true; true].
Example C48_case : forall buf, exists s1 s2 g',
  let v := mk_env false false 1000 in
  tokens_together turns (parse_thread v dict34) (parse_thread v dict78) (buf, DTYPE_MAP) /\
  run turns (parse_thread v dict34) (parse_thread v dict78) (buf, DTYPE_MAP) =
    (Done (Ok (mk_header (Some INT32) (Some LITTLE) (Some false) [3; 4] (Some 0))) s1,
     Done (Ok (mk_header (Some INT32) (Some LITTLE) (Some false) [7; 8] (Some 0))) s2, g').
Proof.
  intros buf. eexists _, _, _. cbv zeta. split; [vm_compute; tauto|vm_compute; reflexivity].
Qed.
