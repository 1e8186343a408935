(** Facts about the reads of a stream over any buffer: Sources.v. *)
From Coq Require Import String ZArith List Bool Lia.
From Verif Require Import Base Stream BaseFacts Dtype Values Header Tensor Npy Throwing Sources.
Import ListNotations.
Open Scope Z_scope.

(** ** Against the stream of Stream.v that has just what was delivered *)
Definition dry (s : istream) : Prop := good s = false \/ rest s = [].
Definition mimics {A} (op : Y A) (xop : X A) : Prop := forall st,
  match op st with
  | (Left _, st') => i_good st' = false /\ exists d, i_got st' = i_got st ++ d
  | (Read r, st') => exists d, i_got st' = i_got st ++ d /\
      (i_good st = false -> d = [] /\ i_good st' = false /\ forall s, dry s -> exists s', xop s = (Some r, s') /\ dry s') /\
      (i_good st = true -> i_good st' = true -> forall s q, good s = true -> rest s = d ++ q -> xop s = (Some r, set_rest s q)) /\
      (i_good st = true -> i_good st' = false -> forall s, good s = true -> rest s = d -> exists s', xop s = (Some r, s') /\ dry s')
  end.
Lemma set_rest_self s : set_rest s (rest s) = s.
Proof. now destruct s. Qed.
Lemma mimics_ret A (r : A) : mimics (yret r) (xret r).
Proof.
  intros st. cbn. exists []. rewrite app_nil_r. split; [reflexivity|]. split; [intros H; split; [reflexivity|]; split; [exact H|]; intros s Hs; exists s; auto|].
  split; [|intros H1 H2; congruence]. intros _ _ s q _ HR. cbn [app] in HR. rewrite <- HR. unfold xret. now rewrite set_rest_self.
Qed.
Lemma mimics_bind A B (a : Y A) (f : A -> Y B) a' f' :
  mimics a a' -> (forall r, mimics (f r) (f' r)) -> mimics (ybind a f) (xbind a' f').
Proof.
  intros Ha Hf st. unfold ybind. specialize (Ha st). destruct (a st) as [[r|x] st1]; [|exact Ha].
  destruct Ha as (d1 & G1 & N1 & F1 & D1). specialize (Hf r st1). destruct (f r st1) as [[r2|x] st2].
  - destruct Hf as (d2 & G2 & N2 & F2 & D2). exists (d1 ++ d2). split; [rewrite G2, G1; symmetry; apply app_assoc|].
    unfold xbind. destruct (i_good st1) eqn:E1.
    + split; [intros H; destruct (N1 H) as (_ & H1 & _); congruence|]. split.
      * intros H0 H2 s q Hs HR. rewrite <- app_assoc in HR. rewrite (F1 H0 eq_refl s _ Hs HR).
        exact (F2 eq_refl H2 (set_rest s (d2 ++ q)) q Hs eq_refl).
      * intros H0 H2 s Hs HR. rewrite (F1 H0 eq_refl s _ Hs HR).
        exact (D2 eq_refl H2 (set_rest s d2) Hs eq_refl).
    + destruct (N2 eq_refl) as (-> & E2 & N3). rewrite app_nil_r. split; [|split].
      * intros H0. destruct (N1 H0) as (-> & _ & N4). split; [reflexivity|]. split; [exact E2|]. intros s Hs.
        destruct (N4 s Hs) as (s1 & -> & Hs1). exact (N3 s1 Hs1).
      * intros _ H. congruence.
      * intros H0 _ s Hs HR. destruct (D1 H0 eq_refl s Hs HR) as (s1 & -> & Hs1). exact (N3 s1 Hs1).
  - destruct Hf as [H (d & E)]. split; [exact H|]. exists (d1 ++ d). rewrite E, G1. symmetry. apply app_assoc.
Qed.

Lemma fires_no s : fires no_mask s = false. Proof. reflexivity. Qed.
Lemma ztake_nil A n : @ztake A n [] = [].
Proof. rewrite ztake_firstn. apply firstn_nil. Qed.
Lemma zdrop_nil A n : @zdrop A n [] = [].
Proof. rewrite zdrop_skipn. apply skipn_nil. Qed.
Lemma xread_dry n s : dry s -> exists s', xread no_mask n s = (Some [], s') /\ dry s'.
Proof.
  intros Hs. unfold xread, sread. destruct (good s) eqn:G.
  - destruct Hs as [Hs|Hs]; [congruence|]. rewrite Hs, ztake_nil, zdrop_nil. destruct (_ <? n); rewrite fires_no; eexists; (split; [reflexivity|]); right; reflexivity.
  - rewrite fires_no. eexists. split; [reflexivity|]. left. unfold set_fail, good. cbn. apply andb_false_r.
Qed.
Lemma xget_dry s : dry s -> exists s', xget no_mask s = (Some (-1), s') /\ dry s'.
Proof.
  intros Hs. unfold xget, sget. destruct (good s) eqn:G.
  - destruct Hs as [Hs|Hs]; [congruence|]. rewrite Hs, fires_no. eexists. split; [reflexivity|]. right. exact Hs.
  - rewrite fires_no. eexists. split; [reflexivity|]. left. unfold set_fail, good. cbn. apply andb_false_r.
Qed.
Lemma refused_mimics A m (r : A) xop st : i_good st = false ->
  (forall s, dry s -> exists s', xop s = (Some r, s') /\ dry s') ->
  match refused m r st with
  | (Left _, st') => i_good st' = false /\ exists d, i_got st' = i_got st ++ d
  | (Read r, st') => exists d, i_got st' = i_got st ++ d /\
      (i_good st = false -> d = [] /\ i_good st' = false /\ forall s, dry s -> exists s', xop s = (Some r, s') /\ dry s') /\
      (i_good st = true -> i_good st' = true -> forall s q, good s = true -> rest s = d ++ q -> xop s = (Some r, set_rest s q)) /\
      (i_good st = true -> i_good st' = false -> forall s, good s = true -> rest s = d -> exists s', xop s = (Some r, s') /\ dry s')
  end.
Proof.
  intros G HD. unfold refused, settle. set (s1 := mk_instream _ _ _ _ _).
  assert (i_good s1 = false) as G1 by (unfold i_good, s1; cbn; destruct (s_bad st); reflexivity).
  destruct (i_fires m s1).
  - split; [exact G1|]. exists []. symmetry. apply app_nil_r.
  - exists []. split; [symmetry; apply app_nil_r|]. rewrite G. split; [auto|]. split; discriminate.
Qed.
Lemma ztake_self A n (b q : list A) : len (ztake n b) <? n = false -> ztake n (ztake n b ++ q) = ztake n b /\ zdrop n (ztake n b ++ q) = q.
Proof.
  intros H. apply Z.ltb_ge in H. destruct (Z.le_gt_cases n 0) as [H0|H0].
  - rewrite !ztake_firstn, zdrop_skipn. replace (Z.to_nat n) with 0%nat by lia. auto.
  - assert (n = len (ztake n b)) as E by (rewrite len_ztake in *; lia).
    split; [apply ztake_app_exact|apply zdrop_app_exact]; exact E.
Qed.
Lemma ztake_twice A n (b : list A) : ztake n (ztake n b) = ztake n b /\ zdrop n (ztake n b) = [].
Proof.
  rewrite !ztake_firstn, zdrop_skipn, firstn_firstn, Nat.min_id. split; [reflexivity|].
  apply skipn_all2. rewrite firstn_length. lia.
Qed.
Lemma yread_mimics src m n : mimics (yread src m n) (xread no_mask n).
Proof.
  intros st. unfold yread. destruct (i_good st) eqn:G.
  - destruct (src (i_asked st) (Many n)) as [b|b].
    + cbv zeta. unfold settle. destruct (len (ztake n b) <? n) eqn:E.
      * set (s1 := mk_instream _ _ _ _ _). destruct (i_fires m s1); [split; [reflexivity|exists (ztake n b); reflexivity]|].
        exists (ztake n b). split; [reflexivity|]. split; [congruence|]. split; [discriminate|]. intros _ _ s Hs HR.
        unfold xread, sread. rewrite Hs, HR. destruct (ztake_twice _ n b) as [-> ->]. cbv zeta. rewrite E. cbv beta iota. rewrite ?fires_no. eexists. split; [reflexivity|].
        right. reflexivity.
      * set (s1 := mk_instream _ _ _ _ _). assert (i_fires m s1 = false) as -> by (unfold i_fires, s1; cbn; now rewrite !andb_false_r).
        exists (ztake n b). split; [reflexivity|]. split; [congruence|]. split; [|discriminate]. intros _ _ s q Hs HR.
        unfold xread, sread. rewrite Hs, HR. destruct (ztake_self _ n b q E) as [-> ->]. cbv zeta. rewrite E. cbv beta iota. rewrite ?fires_no. reflexivity.
    + destruct (i_bad m); [split; [reflexivity|exists (ztake n b); reflexivity]|].
      exists (ztake n b). split; [reflexivity|]. split; [congruence|]. split; [discriminate|]. intros _ _ s Hs HR.
      unfold xread, sread. rewrite Hs, HR. destruct (ztake_twice _ n b) as [-> ->]. cbv zeta.
      destruct (_ <? n); rewrite ?fires_no; eexists; (split; [reflexivity|]); right; reflexivity.
  - pose proof (refused_mimics _ m (@nil Z) (xread no_mask n) st G (xread_dry n)) as H. rewrite G in H. exact H.
Qed.
Lemma yget_mimics src m : mimics (yget src m) (xget no_mask).
Proof.
  intros st. unfold yget. destruct (i_good st) eqn:G.
  - destruct (src (i_asked st) One) as [[|c b]|b].
    + unfold settle. set (s1 := mk_instream _ _ _ _ _). destruct (i_fires m s1); [split; [reflexivity|exists []; symmetry; apply app_nil_r]|].
      exists []. split; [symmetry; apply app_nil_r|]. split; [congruence|]. split; [discriminate|]. intros _ _ s Hs HR.
      apply xget_dry. right. exact HR.
    + exists [c]. split; [reflexivity|]. split; [congruence|]. split; [|discriminate]. intros _ _ s q Hs HR.
      unfold xget, sget. rewrite Hs, HR. cbn [app]. rewrite fires_no. reflexivity.
    + cbv zeta. unfold settle. set (s1 := mk_instream _ _ _ _ _).
      destruct (i_bad m); [split; [reflexivity|exists []; symmetry; apply app_nil_r]|].
      destruct (i_fires m s1); [split; [reflexivity|exists []; symmetry; apply app_nil_r]|].
      exists []. split; [symmetry; apply app_nil_r|]. split; [congruence|]. split; [discriminate|]. intros _ _ s Hs HR.
      apply xget_dry. right. exact HR.
  - pose proof (refused_mimics _ m (-1) (xget no_mask) st G xget_dry) as H. rewrite G in H. exact H.
Qed.

(** ** Code made of such reads *)
Lemma ygetc_mimics src m n : mimics (ygetc_n src m n) (xgetc_n no_mask n).
Proof.
  induction n as [|n IH]; cbn [ygetc_n xgetc_n]; [apply mimics_ret|].
  apply mimics_bind; [apply yget_mimics|intros c]. apply mimics_bind; [exact IH|intros; apply mimics_ret].
Qed.
Lemma yswapped_mimics src m k n : mimics (yswapped src m k n) (xswapped no_mask k n).
Proof.
  induction n as [|n IH]; cbn [yswapped xswapped]; [apply mimics_ret|].
  apply mimics_bind; [apply ygetc_mimics|intros c]. apply mimics_bind; [exact IH|intros; apply mimics_ret].
Qed.
Lemma ywstr_mimics src m v e j : mimics (ywstr src m v e j) (xwstr no_mask v e j).
Proof.
  induction j as [|n IH]; cbn [ywstr xwstr]; [apply mimics_ret|].
  apply mimics_bind; [apply ygetc_mimics|intros c]. cbv zeta. apply mimics_bind; [exact IH|intros; apply mimics_ret].
Qed.
Lemma ywstrs_mimics src m v e j n : mimics (ywstrs src m v e j n) (xwstrs no_mask v e j n).
Proof.
  induction n as [|n IH]; cbn [ywstrs xwstrs]; [apply mimics_ret|].
  apply mimics_bind; [apply ywstr_mimics|intros c]. apply mimics_bind; [exact IH|intros; apply mimics_ret].
Qed.
Lemma yvalues_mimics src m v d e j n : mimics (yvalues src m v d e j n) (xvalues no_mask v d e j n).
Proof.
  unfold yvalues, xvalues. destruct (is_string d); [apply ywstrs_mimics|]. cbv zeta.
  destruct (raw_type d || is_native v e).
  - apply mimics_bind; [apply yread_mimics|intros; apply mimics_ret].
  - apply mimics_bind; [apply yswapped_mimics|intros; apply mimics_ret].
Qed.
Lemma ydict_mimics src m v : mimics (ydict src m v) (xdict no_mask v).
Proof.
  unfold ydict, xdict. apply mimics_bind; [apply yread_mimics|]. intros got. cbv zeta.
  assert (forall n, mimics (if n >? mem v then yret (@Throw bytes AllocError) else ybind (yread src m n) (fun d => yret (Ok (d ++ zrepeat 0 (n - len d)))))
    (if n >? mem v then xret (@Throw bytes AllocError) else xbind (xread no_mask n) (fun d => xret (Ok (d ++ zrepeat 0 (n - len d)))))) as HT.
  { intros n. destruct (n >? mem v); [apply mimics_ret|].
    apply mimics_bind; [apply yread_mimics|intros; apply mimics_ret]. }
  destruct (obind _ _) as [[v1 v2]|x| |u]; try apply mimics_ret. destruct v1.
  - destruct (obind _ _) as [n|x| |u]; try apply mimics_ret. apply HT.
  - destruct v2; [|apply HT]. apply mimics_bind; [apply yread_mimics|]. intros ex.
    destruct (obind _ _) as [n|x| |u]; try apply mimics_ret. apply HT.
Qed.
Lemma tensor_load_mimics src m v d h : mimics (tensor_load_y src m v d h) (tensor_load_x no_mask v d h).
Proof.
  unfold tensor_load_y, tensor_load_x. destruct (obind _ _) as [[[t e] j]|x| |u]; try apply mimics_ret.
  apply mimics_bind; [apply yvalues_mimics|intros; apply mimics_ret].
Qed.

(** ** Closed properties of the state *)
(** Begun on a good stream: an exception escapes exactly if the stream is not good afterwards. Never does one escape. *)
Definition alert {A} (op : Y A) : Prop := forall st, i_good st = true ->
  match op st with (Read _, st') => i_good st' = true | (Left _, st') => i_good st' = false end.
Definition mild {A} (op : Y A) : Prop := forall st, exists r, fst (op st) = Read r.
Lemma alert_ret A (r : A) : alert (yret r). Proof. intros st H. exact H. Qed.
Lemma mild_ret A (r : A) : mild (yret r). Proof. intros st. eexists. reflexivity. Qed.
Lemma alert_bind A B (a : Y A) (f : A -> Y B) : alert a -> (forall r, alert (f r)) -> alert (ybind a f).
Proof.
  intros Ha Hf st Hs. unfold ybind. specialize (Ha st Hs). destruct (a st) as [[r|x] s1]; [|exact Ha]. now apply Hf.
Qed.
Lemma mild_bind A B (a : Y A) (f : A -> Y B) : mild a -> (forall r, mild (f r)) -> mild (ybind a f).
Proof.
  intros Ha Hf st. unfold ybind. destruct (Ha st) as [r E]. destruct (a st) as [[r'|x] s1]; [|discriminate]. apply Hf.
Qed.
Definition closed (P : forall A, Y A -> Prop) : Prop :=
  (forall A (r : A), P A (yret r)) /\ (forall A B (a : Y A) (f : A -> Y B), P A a -> (forall r, P B (f r)) -> P B (ybind a f)).
(** What holds of reads, and sequencing keeps, holds of all the code. *)
Section all.
  Variable P : forall A, Y A -> Prop.
  Variable src : source.
  Variable m : in_mask.
  Hypothesis HP : closed P.
  Hypothesis HR : forall n, P bytes (yread src m n).
  Hypothesis HG : P Z (yget src m).
  Lemma all_getc n : P _ (ygetc_n src m n).
  Proof. destruct HP as [R B]. induction n as [|n IH]; cbn [ygetc_n]; [apply R|]. apply B; [exact HG|intros]. apply B; [exact IH|intros; apply R]. Qed.
  Lemma all_values v d e j n : P _ (yvalues src m v d e j n).
  Proof.
    destruct HP as [R B]. unfold yvalues. destruct (is_string d).
    - generalize (Z.to_nat j) (Z.to_nat n). intros j' n'. induction n' as [|n' IH]; cbn [ywstrs]; [apply R|]. apply B; [|intros; apply B; [exact IH|intros; apply R]].
      clear IH. induction j' as [|j' IHj]; cbn [ywstr]; [apply R|]. apply B; [apply all_getc|intros]. cbv zeta. apply B; [exact IHj|intros; apply R].
    - cbv zeta. destruct (raw_type d || is_native v e); [apply B; [apply HR|intros; apply R]|]. apply B; [|intros; apply R].
      generalize (Z.to_nat n). intros n'. induction n' as [|n' IH]; cbn [yswapped]; [apply R|]. apply B; [apply all_getc|intros]. apply B; [exact IH|intros; apply R].
  Qed.
  Lemma all_dict v : P _ (ydict src m v).
  Proof.
    destruct HP as [R B]. unfold ydict. apply B; [apply HR|intros got]. cbv zeta.
    assert (forall n, P (outcome bytes) (if n >? mem v then yret (Throw AllocError) else ybind (yread src m n) (fun d => yret (Ok (d ++ zrepeat 0 (n - len d)))))) as HT.
    { intros n. destruct (n >? mem v); [apply R|]. apply B; [apply HR|intros; apply R]. }
    destruct (obind _ _) as [[v1 v2]|x| |u]; try apply R. destruct v1.
    - destruct (obind _ _) as [n|x| |u]; try apply R. apply HT.
    - destruct v2; [|apply HT]. apply B; [apply HR|]. intros ex. destruct (obind _ _) as [n|x| |u]; try apply R. apply HT.
  Qed.
  Lemma all_tensor v d h : P _ (tensor_load_y src m v d h).
  Proof.
    destruct HP as [R B]. unfold tensor_load_y. destruct (obind _ _) as [[[t e] j]|x| |u]; try apply R.
    apply B; [apply all_values|intros; apply R].
  Qed.
End all.
