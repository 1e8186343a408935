(** Facts for C73 and C75: what a file gives every libnpy program that reads it. *)
From Coq Require Import String ZArith List Bool Lia.
From Verif Require Import Base Stream BaseFacts Dtype Values Spec ValuesFacts PropValues Header HeaderFacts ParseFacts ParserInv
  NpyFacts Tensor Npy TensorFacts PropTensor SaveFacts PropNpy TensorVars PropVars Views PropViews CutFacts PropCut Files PropFiles
  Crc Npz NpzFacts ArchiveFacts PropNpz PropZip ZipFiles PropDisk Arr Tinfl Tdefl DeflTop PropCompress Twin PropSame Program ProgramSpec ProgFacts ProgArch.
Import ListNotations.
Open Scope Z_scope.

(** The hosts the comparison covers. *)
Definition usual (v : env) : Prop := host_big v = false /\ 2 ^ 32 <= mem v.
(** An NPY file of [a]: what [load] and [peek] make of it. *)
Definition npy_serves (v : env) (b : bytes) (a : array) : Prop :=
  forall s g, good s = true -> rest s = b -> prior_parses g ->
  (forall d, exists s' g', prior_parses g' /\
     match received (mem v) d a with
     | inr y => exists t, load v d s g = (Ok t, s', g') /\ is_array t y /\ a_type y = d
     | inl x => load v d s g = (Throw x, s', g')
     end) /\
  exists h s' g', prior_parses g' /\ peek v s g = (Ok h, s', g') /\
    header_seen h = Ok (SawHeader (a_type a) (a_fortran a) (a_shape a)).
(** An open reader of the named arrays [items], now and after any reads. *)
Definition reader_answers (v : env) (c : codec) (items : list (bytes * array)) (keeps : reader -> Prop) (rd : reader) : Prop :=
  (forall d n g, prior_parses g -> exists rd' g', prior_parses g' /\ keeps rd' /\
    match resolve items n with
    | None => r_read v c d rd n g = (Throw InvalidArgument, rd', g')
    | Some y => match received (mem v) d y with
                | inr y' => exists t, r_read v c d rd n g = (Ok t, rd', g') /\ is_array t y' /\ a_type y' = d
                | inl x => r_read v c d rd n g = (Throw x, rd', g')
                end
    end) /\
  (forall n g, prior_parses g -> exists rd' g', prior_parses g' /\ keeps rd' /\
    match resolve items n with
    | None => r_peek v c rd n g = (Throw InvalidArgument, rd', g')
    | Some y => exists h, r_peek v c rd n g = (Ok h, rd', g') /\ header_seen h = Ok (SawHeader (a_type y) (a_fortran y) (a_shape y))
    end) /\
  (forall n, r_contains rd n = existsb (fun p => beq (npy_name (fst p)) n) items) /\
  r_keys rd = sorted_names items.
Definition reader_serves (v : env) (c : codec) (items : list (bytes * array)) (rd : reader) : Prop :=
  exists keeps : reader -> Prop, keeps rd /\ forall rd, keeps rd -> reader_answers v c items keeps rd.
(** An archive of the named arrays [items]. *)
Definition npz_serves (v : env) (c : codec) (b : bytes) (items : list (bytes * array)) : Prop :=
  exists rd, new_file_reader (Some b) = Ok rd /\ reader_serves v c items rd.

Lemma received_type m d a y : received m d a = inr y -> y = a /\ a_type a = d.
Proof.
  unfold received. destruct (_ >? m); [discriminate|]. destruct (dtype_eqb _ _) eqn:ED; [|discriminate]. intros [= <-].
  split; [reflexivity|]. destruct d, (a_type a); (reflexivity || discriminate).
Qed.
(** ** NPY files libnpy writes *)
Lemma file_of_same v v' e t : host_big v = false -> host_big v' = false -> file_of v e t = file_of v' e t.
Proof. intros H H'. unfold file_of. now rewrite (save_same v v'). Qed.
Lemma file_serves v v' e t a : usual v -> host_big v' = false -> is_array t a -> recordable (host_big v') e a ->
  npy_serves v (file_of v' e t) a.
Proof.
  intros [HL HM] HL' HA HR s g G R Hg. rewrite (file_of_same v' v) in R by assumption. rewrite HL', <- HL in HR. split.
  - intros d. destruct (file_loads v e t a d s g [] HA HR ltac:(lia) G Hg ltac:(now rewrite app_nil_r)) as (s' & g' & Hg' & E).
    exists s', g'. split; [exact Hg'|]. destruct (received (mem v) d a) as [x|y] eqn:ER; [exact E|].
    destruct (received_type _ _ _ _ ER) as [-> HT]. exists t. auto.
  - exact (file_peeks v e t a s g [] HA HR ltac:(lia) G Hg ltac:(now rewrite app_nil_r)).
Qed.

(** ** Archives libnpy writes *)
Lemma leb_le a : forall b, bytes_leb a b = name_le a b.
Proof.
  induction a as [|x a IH]; intros [|y b]; try reflexivity. cbn [bytes_leb name_le]. rewrite IH.
  destruct (x <? y) eqn:E1; [reflexivity|]. destruct (y <? x) eqn:E2.
  - assert (x =? y = false) as -> by (apply Z.eqb_neq; lia). reflexivity.
  - assert (x =? y = true) as -> by (apply Z.eqb_eq; lia). reflexivity.
Qed.
Lemma sort_names l : sort_keys l = fold_right place_name [] l.
Proof.
  unfold sort_keys. induction l as [|x l IH]; [reflexivity|]. cbn [fold_right]. rewrite IH. generalize (fold_right place_name [] l). intros m.
  induction m as [|y m IHm]; [reflexivity|]. cbn [insert_key place_name]. rewrite leb_le. destruct (name_le x y); [reflexivity|]. now rewrite IHm.
Qed.
Lemma r_read_codec v c c' d rd n g : c_inflate c = c_inflate c' -> r_read v c d rd n g = r_read v c' d rd n g.
Proof. intros H. unfold r_read, r_read_file, read_file. now rewrite H. Qed.
Lemma r_peek_codec v c c' rd n g : c_inflate c = c_inflate c' -> r_peek v c rd n g = r_peek v c' rd n g.
Proof. intros H. unfold r_peek, r_read_file, read_file. now rewrite H. Qed.
Section Reading.
(** Written by [w], read by [v]. *)
Variables (w v : env) (c : codec) (m : Z) (e : endian) (items : list (bytes * array)) (ts : list (bytes * tensor)) (a : bytes) (r0 rd : reader).
Hypothesis (HC : libnpy_codec w c) (HU : usual v).
Hypothesis (HM : Forall2 (member w m e) items ts) (HA : archive w c m e ts a) (HO : opened a r0) (HR : reader_after v c r0 rd).

Lemma names_same : map (fun p => npy_name (fst p)) ts = map (fun p => npy_name (fst p)) items.
Proof. clear - HM. induction HM as [|p q items ts (E & _) H IH]; [reflexivity|]. cbn [map]. now rewrite E, IH. Qed.
Lemma members_unpack : Forall (unpacks c m w e v) ts.
Proof.
  assert (m = STORED \/ m = DEFLATED) as Hm by apply HA. destruct HU as [_ HMem]. clear - HC HMem HM Hm.
  revert HM. generalize items, ts. intros l1 l2 H. induction H as [|p q l1 l2 Hp H IH]; [constructor|].
  constructor; [|exact IH]. pose proof HC as (HV & HI & HD). destruct Hm as [->| ->]; intros b cb Hb Hc; [now right|]. left.
  pose proof (member_packs w c DEFLATED e p q HC Hp b Hb) as [(z & Hz & HL)|HP]; [|discriminate]. assert (z = cb) as -> by congruence. split; [|lia].
  destruct Hp as (_ & HAr & _ & _ & _ & _ & HS). specialize (HS eq_refl). rewrite <- (file_size_len _ _ _ _ HAr) in HS.
  rewrite file_of_save in Hb. injection Hb as <-. rewrite HI.
  destruct (HD (file_of w e (snd q))) as (dict & next & buf & HH & E). rewrite Hc in E.
  assert (bytes_ok (file_of w e (snd q))) as HB by (eapply save_ok; [apply HAr|apply file_of_save]).
  destruct (C49_round_trip w dict next buf _ HV HH HB) as (z & Ez & H1 & H2 & _). assert (z = cb) as -> by congruence.
  destruct HS as [HS|[HS1 HS2]]; auto.
Qed.
Lemma members_fit k u b : In (k, u) ts -> save w u e = Ok b -> len b <= mem v.
Proof.
  intros HI Hb. destruct HU as [_ HMem]. destruct HA as (_ & HS & _). eapply Forall_forall in HS; [|exact HI]. destruct HS as (_ & _ & HS). specialize (HS b Hb). lia.
Qed.
Lemma member_serves y t : is_array t y -> recordable (host_big w) e y -> npy_serves v (file_of w e t) y.
Proof. apply file_serves; [exact HU|apply HC]. Qed.
Lemma archive_answers : reader_answers v c items (reader_after v c r0) rd.
Proof.
  assert (forall n, match resolve items n with
    | None => forall d g, r_read v c d rd n g = (Throw InvalidArgument, rd, g) /\ r_peek v c rd n g = (Throw InvalidArgument, rd, g)
    | Some y => forall g, exists b r2, npy_serves v b y /\
         (let '(o, _, g') := peek v (open_str b) g in r_peek v c rd n g = (o, r2, g')) /\
         (forall d, let '(o, _, g') := load v d (open_str b) g in r_read v c d rd n g = (o, r2, g'))
    end) as HB.
  { intros n. pose proof (resolve_both w m e items ts n HM) as HB. destruct (resolve items n) as [y|], (resolve ts n) as [t|] eqn:ET; try contradiction.
    - destruct HB as [Hy HRc]. intros g.
      destruct (C47_peek_and_read_decode_the_saved_bytes w v c m e ts a r0 rd n t g HA members_unpack members_fit HO HR ET) as (b & r2 & Hb & HPk & HRd).
      rewrite file_of_save in Hb. injection Hb as <-. exists (file_of w e t), r2. split; [now apply member_serves|]. auto.
    - destruct (C37_lookup w v c m e ts a r0 rd n HA HO HR) as (_ & H2 & H3 & _). intros d g.
      assert (resolve ts n = None) as HN by exact ET.
      exact (H3 ltac:(intros HI; destruct (H2 (or_introl HI)); congruence) ltac:(intros HI; destruct (H2 (or_intror HI)); congruence) d g). }
  split; [|split; [|split]].
  - intros d n g Hg. specialize (HB n). destruct (resolve items n) as [y|].
    + destruct (HB g) as (b & r2 & HS & _ & HRd). specialize (HRd d). destruct (HS (open_str b) g eq_refl eq_refl Hg) as [HL _].
      destruct (HL d) as (s' & g' & Hg' & HLd). exists r2, g'. split; [exact Hg'|]. destruct (received (mem v) d y) as [x|y'].
      * rewrite HLd in HRd. split; [|exact HRd]. replace r2 with (snd (fst (r_read v c d rd n g))) by (now rewrite HRd). now constructor.
      * destruct HLd as (t & HLd & K1 & K2). rewrite HLd in HRd. split; [|exists t; auto].
        replace r2 with (snd (fst (r_read v c d rd n g))) by (now rewrite HRd). now constructor.
    + exists rd, g. split; [exact Hg|]. split; [exact HR|]. apply HB.
  - intros n g Hg. specialize (HB n). destruct (resolve items n) as [y|].
    + destruct (HB g) as (b & r2 & HS & HPk & _). destruct (HS (open_str b) g eq_refl eq_refl Hg) as [_ (h & s' & g' & Hg' & EP & EH)].
      rewrite EP in HPk. exists r2, g'. split; [exact Hg'|]. split; [|eauto].
      replace r2 with (snd (fst (r_peek v c rd n g))) by (now rewrite HPk). now constructor.
    + exists rd, g. split; [exact Hg|]. split; [exact HR|]. apply (HB INT8).
  - intros n. destruct (C37_lookup w v c m e ts a r0 rd n HA HO HR) as (H1 & _). rewrite names_same in H1.
    apply eq_true_iff_eq. rewrite H1, existsb_exists, in_map_iff. split; intros (p & E1 & E2); exists p.
    + split; [exact E2|apply beq_eq; exact E1].
    + apply beq_eq in E2. split; assumption.
  - destruct (archive_ps _ _ _ _ _ _ HA) as (ps & HL & _ & HOp & _). destruct (HOp r0 HO) as [HS HK].
    destruct (after_serving v c m _ ps r0 rd HL HS HR) as [_ HK']. rewrite HK', HK, names_same, sort_names. reflexivity.
Qed.
End Reading.
Lemma answers_codec v c c' items keeps rd : c_inflate c = c_inflate c' ->
  reader_answers v c items keeps rd -> reader_answers v c' items keeps rd.
Proof.
  intros H (H1 & H2 & H3 & H4). split; [|split; [|split; assumption]].
  - intros d n g Hg. destruct (H1 d n g Hg) as (rd' & g' & K1 & K2 & K3). exists rd', g'. split; [exact K1|]. split; [exact K2|].
    rewrite (r_read_codec v c c') in K3 by exact H. exact K3.
  - intros n g Hg. destruct (H2 n g Hg) as (rd' & g' & K1 & K2 & K3). exists rd', g'. split; [exact K1|]. split; [exact K2|].
    rewrite (r_peek_codec v c c') in K3 by exact H. exact K3.
Qed.
Lemma archive_serves w cw v c m e items ts a : libnpy_codec w cw -> usual v -> c_inflate c = npy_inflate ->
  Forall2 (member w m e) items ts -> archive w cw m e ts a -> npz_serves v c a items.
Proof.
  intros HW HU HI HM HA. destruct (archive_ps _ _ _ _ _ _ HA) as (ps & _ & _ & _ & _ & (r0 & HR0)).
  exists r0. split; [exact HR0|]. exists (reader_after v cw r0). split; [constructor|]. intros rd HR.
  apply (answers_codec v cw c); [destruct HW as (_ & -> & _); now rewrite HI|].
  exact (archive_answers w v cw m e items ts a r0 rd HW HU HM HA (or_intror HR0) HR).
Qed.
