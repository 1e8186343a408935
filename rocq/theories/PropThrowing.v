(** C78: loading from a stream that throws. *)
From Coq Require Import String ZArith List Bool Lia.
From Verif Require Import Base Stream BaseFacts Dtype Values Spec Header ParserInv Tensor Npy SaveFacts PropNpy CutFacts
  TensorFacts PropTensor PropCut Throwing ThrowFacts.
Import ListNotations.
Open Scope Z_scope.

(** With or without exceptions, a call that is not ended by one does the same: same result, same position of
    the stream, same scratch buffer left behind.  It is ended by std::ios_base::failure only where the default
    stream would have ended in that state, or with bytes that were never read. *)
Theorem C78_same_or_failure : forall m v d s g, fires m s = false ->
  match load_x m v d s g with
  | (Answer o, s', g') =>
      exists s2, load v d s g = (o, s2, g') /\ (s2 = s' \/ o = Undef UninitRead) /\ fires m s' = false
  | (Failure, s', g') => fires m s' = true /\ g' = snd (peek_x m v s g) /\
      (fst (fst (load v d s g)) = Undef UninitRead \/ fires m (snd (fst (load v d s g))) = true)
  end /\
  match peek_x m v s g with
  | (Answer o, s', g') =>
      exists s2, peek v s g = (o, s2, g') /\ (s2 = s' \/ o = Undef UninitRead) /\ fires m s' = false
  | (Failure, s', g') => fires m s' = true /\ g' = g /\
      (fst (fst (peek v s g)) = Undef UninitRead \/ fires m (snd (fst (peek v s g))) = true)
  end.
Proof.
  intros m v d s g Hs. split.
  - pose proof (load_agrees m v d s g Hs) as H. destruct (load_x m v d s g) as [[[|o] s'] g'] eqn:EL; cbn [agrees'] in H.
    { destruct H as [H1 H2]. split; [exact H1|]. split; [|exact H2]. unfold load_x in EL.
      destruct (peek_x m v s g) as [[[|h] s1] g1]; [now injection EL as _ <-|]. destruct h as [h|x| |u]; try discriminate EL.
      destruct (tensor_load_x m v d h s1) as [[o2|] s2]; [discriminate EL|]. now injection EL as _ <-. }
    destruct (load v d s g) as [[o2 s2] g2]. cbn [fst snd] in H. destruct H as (-> & -> & H & HF). eauto.
  - pose proof (header_agrees m v s g Hs) as H. unfold peek.
    destruct (peek_x m v s g) as [[[|o] s'] g']; cbn [agrees] in H; [exact H|].
    destruct (read_npy_header v s g) as [[o2 s2] g2]. cbn [fst snd] in H. destruct H as (-> & -> & H & HF). eauto.
Qed.
Print Assumptions C78_same_or_failure.

(** So with the default mask nothing is different. *)
Theorem C78_default_mask : forall v d s g,
  fst (fst (load_x no_mask v d s g)) = Answer (fst (fst (load v d s g))) /\
  snd (load_x no_mask v d s g) = snd (load v d s g) /\
  fst (fst (peek_x no_mask v s g)) = Answer (fst (fst (peek v s g))) /\
  snd (peek_x no_mask v s g) = snd (peek v s g).
Proof.
  intros v d s g. assert (forall s', fires no_mask s' = false) as HN by reflexivity.
  destruct (C78_same_or_failure no_mask v d s g (HN s)) as [H1 H2].
  destruct (load_x no_mask v d s g) as [[[|o] s1] g1]; [destruct H1 as [H1 _]; rewrite HN in H1; discriminate|].
  destruct (peek_x no_mask v s g) as [[[|o2] s2] g2]; [destruct H2 as [H2 _]; rewrite HN in H2; discriminate|].
  destruct H1 as (t1 & -> & _). destruct H2 as (t2 & -> & _). auto.
Qed.
Print Assumptions C78_default_mask.

(** A stream that is not good when it is handed over (it has been read to its end, or an earlier read failed): with
    failbit on, the call throws at once; with eofbit alone, it throws if the stream is at its end. *)
Theorem C78_bad_from_the_start : forall m v d s g, good s = false ->
  on_fail m = true \/ (on_eof m = true /\ eofb s = true) ->
  load_x m v d s g = (Failure, set_fail s, g) /\ peek_x m v s g = (Failure, set_fail s, g).
Proof.
  intros m v d s g G HM.
  assert (peek_x m v s g = (Failure, set_fail s, g)) as H.
  { unfold peek_x, xdict, xbind, xread, sread. rewrite G.
    assert (fires m (set_fail s) = true) as ->; [|reflexivity].
    unfold fires, set_fail. cbn. destruct HM as [->|[-> ->]]; [rewrite orb_true_r|]; reflexivity. }
  split; [|exact H]. unfold load_x. now rewrite H.
Qed.
Print Assumptions C78_bad_from_the_start.

(** [call] takes exactly the bytes [p] for its result: with them it gives that result whatever follows,
    and leaves the rest unread; with any fewer it throws. *)
Definition takes_exactly {A} (call : istream -> answer A * istream * globals) (p : bytes) (r : outcome A) (g' : globals) : Prop :=
  (forall s q, good s = true -> rest s = p ++ q -> call s = (Answer r, set_rest s q, g')) /\
  (forall s missing, good s = true -> missing <> [] -> p = rest s ++ missing -> fst (fst (call s)) = Failure).

Lemma peek_takes m v s g o s' g' : armed m -> good s = true -> peek_x m v s g = (Answer o, s', g') ->
  exists p, rest s = p ++ rest s' /\ s' = set_rest s (rest s') /\ takes_exactly (fun s => peek_x m v s g) p o g'.
Proof.
  intros Hm Hg H. change (peek_x m v s g) with (parsed v g (xdict m v s)) in H.
  destruct (xdict m v s) as [[b|] s1] eqn:E; [|discriminate].
  destruct (dict_exact m v Hm s b s1 Hg E) as (p & R & S1 & T1 & T2).
  exists p.
  assert (parsed v g (Some b, s1) = (Answer o, s1, g') /\ s1 = s') as [HP <-].
  { cbn [parsed] in *. destruct b as [b|x| |u]; [|injection H as <- <- <-; auto..].
    destruct (parse_dictionary v b g) as [o2 g2]. injection H as <- <- <-. auto. }
  split; [exact R|]. split; [exact S1|]. split.
  - intros s2 q Hg2 R2. change (peek_x m v s2 g) with (parsed v g (xdict m v s2)). rewrite (T1 s2 q Hg2 R2).
    cbn [parsed] in *. destruct b as [b|x| |u]; [|injection HP as <- <-; reflexivity..].
    destruct (parse_dictionary v b g) as [o2 g2]. injection HP as <- <-. reflexivity.
  - intros s2 q Hg2 Hq R2. change (peek_x m v s2 g) with (parsed v g (xdict m v s2)).
    destruct q as [|c q]; [easy|]. specialize (T2 s2 c q Hg2 R2). destruct (xdict m v s2) as [[b2|] s3]; [discriminate|reflexivity].
Qed.
Lemma load_takes m v d s g o s' g' : armed m -> good s = true -> load_x m v d s g = (Answer o, s', g') ->
  exists p, rest s = p ++ rest s' /\ s' = set_rest s (rest s') /\ takes_exactly (fun s => load_x m v d s g) p o g'.
Proof.
  intros Hm Hg H. unfold load_x in H. destruct (peek_x m v s g) as [[[|ho] s1] g1] eqn:EP; [discriminate|].
  destruct (peek_takes m v s g ho s1 g1 Hm Hg EP) as (p1 & R1 & S1 & T1 & T2).
  destruct ho as [h|x| |u].
  - destruct (tensor_load_x m v d h s1) as [[o2|] s2] eqn:EL; [|discriminate]. injection H as -> -> ->.
    assert (good s1 = true) as Hg1 by (rewrite S1; exact Hg).
    destruct (tensor_load_exact m v d h Hm s1 o s' Hg1 EL) as (p2 & R2 & S2 & U1 & U2).
    exists (p1 ++ p2). split; [rewrite <- app_assoc, <- R2; exact R1|]. split; [rewrite S2, S1; reflexivity|]. split.
    + intros s3 q Hg3 R3. rewrite <- app_assoc in R3. unfold load_x. cbv beta in T1. rewrite (T1 s3 _ Hg3 R3).
      rewrite (U1 (set_rest s3 (p2 ++ q)) q); [reflexivity|exact Hg3|reflexivity].
    + intros s3 q Hg3 Hq R3. destruct q as [|c q]; [easy|]. unfold load_x. cbv beta in T1, T2.
      destruct (app_split _ _ _ _ _ _ R3) as [[q1 E]|(t & E & Et)].
      * specialize (T2 s3 (c :: q1) Hg3 ltac:(discriminate) E). destruct (peek_x m v s3 g) as [[[|?] ?] ?]; [reflexivity|discriminate].
      * rewrite (T1 s3 t Hg3 E). specialize (U2 (set_rest s3 t) c q Hg3 Et).
        destruct (tensor_load_x m v d h (set_rest s3 t)) as [[?|] ?]; [discriminate|reflexivity].
  - injection H as <- <- <-. exists p1. split; [exact R1|]. split; [exact S1|]. cbv beta in T1, T2. split.
    + intros s3 q Hg3 R3. unfold load_x. now rewrite (T1 s3 q Hg3 R3).
    + intros s3 q Hg3 Hq R3. unfold load_x. specialize (T2 s3 q Hg3 Hq R3). destruct (peek_x m v s3 g) as [[[|?] ?] ?]; [reflexivity|discriminate].
  - injection H as <- <- <-. exists p1. split; [exact R1|]. split; [exact S1|]. cbv beta in T1, T2. split.
    + intros s3 q Hg3 R3. unfold load_x. now rewrite (T1 s3 q Hg3 R3).
    + intros s3 q Hg3 Hq R3. unfold load_x. specialize (T2 s3 q Hg3 Hq R3). destruct (peek_x m v s3 g) as [[[|?] ?] ?]; [reflexivity|discriminate].
  - injection H as <- <- <-. exists p1. split; [exact R1|]. split; [exact S1|]. cbv beta in T1, T2. split.
    + intros s3 q Hg3 R3. unfold load_x. now rewrite (T1 s3 q Hg3 R3).
    + intros s3 q Hg3 Hq R3. unfold load_x. specialize (T2 s3 q Hg3 Hq R3). destruct (peek_x m v s3 g) as [[[|?] ?] ?]; [reflexivity|discriminate].
Qed.

(** Whatever the bytes are: a tensor is returned only if all of its bytes were there. *)
Theorem C78_no_partial_tensor : forall m v d s g t s' g',
  armed m -> good s = true -> load_x m v d s g = (Answer (Ok t), s', g') ->
  load v d s g = (Ok t, s', g') /\ good s' = true /\
  exists h head body,
    rest s = head ++ body ++ rest s' /\ s' = set_rest s (rest s') /\
    peek_x m v s g = (Answer (Ok h), set_rest s (body ++ rest s'), g') /\
    len body = t_size t * (if is_string d then 4 * Z.max 0 (match h_maxlen h with Some j => j | None => 0 end)
                           else file_item_size d) /\
    takes_exactly (fun s => peek_x m v s g) head (Ok h) g' /\
    takes_exactly (fun s => load_x m v d s g) (head ++ body) (Ok t) g'.
Proof.
  intros m v d s g t s' g' Hm Hg H.
  assert (load v d s g = (Ok t, s', g') /\ good s' = true) as [HL Hg'].
  { destruct (C78_same_or_failure m v d s g (fires_fresh m s Hg)) as [HA _]. rewrite H in HA.
    destruct HA as (s2 & HA & [->|HU] & _); [|discriminate].
    split; [exact HA|]. destruct (load_takes m v d s g _ _ _ Hm Hg H) as (p & _ & -> & _). exact Hg. }
  split; [exact HL|]. split; [exact Hg'|].
  destruct (load_takes m v d s g _ _ _ Hm Hg H) as (p & R & S' & T).
  unfold load_x in H. destruct (peek_x m v s g) as [[[|ho] s1] g1] eqn:EP; [discriminate|].
  destruct ho as [h|x| |u]; [|discriminate..].
  destruct (peek_takes m v s g _ s1 g1 Hm Hg EP) as (p1 & R1 & S1 & T1).
  assert (good s1 = true) as Hg1 by (rewrite S1; exact Hg).
  destruct (tensor_load_x m v d h s1) as [[o2|] s2] eqn:EL; [|discriminate]. injection H as -> -> ->.
  destruct (tensor_load_exact m v d h Hm s1 _ s' Hg1 EL) as (p2 & R2 & S2 & _).
  assert (p = p1 ++ p2) as ->.
  { apply (app_inv_tail (rest s')). rewrite <- app_assoc, <- R2, <- R1. congruence. }
  exists h, p1, p2. split; [rewrite <- R2; exact R1|]. split; [exact S'|].
  split; [rewrite <- R2, <- S1; reflexivity|].
  split; [|split; [exact T1|exact T]].
  (* how long the data is *)
  unfold tensor_load_x in EL.
  destruct (field (h_fortran h)) as [f|x| |u]; cbn [obind] in EL; try discriminate EL.
  destruct (make_tensor v d (h_shape h) f) as [t0|x| |u] eqn:EM; cbn [obind] in EL; try discriminate EL.
  destruct (field (h_dtype h)) as [d'|x| |u]; cbn [obind] in EL; try discriminate EL.
  destruct (dtype_eqb d' d); cbn [obind] in EL; try discriminate EL.
  destruct (if raw_type d then _ else _) as [e|x| |u]; cbn [obind] in EL; try discriminate EL.
  destruct (if is_string d then field (h_maxlen h) else Ok 0) as [j|x| |u] eqn:EJ; cbn [obind] in EL; try discriminate EL.
  unfold xbind at 1 in EL. destruct (xvalues m v d e j (t_size t0) s1) as [[vals|] s3] eqn:EV; [|discriminate EL].
  injection EL as <- <-.
  assert (0 <= t_size t0) as H0 by (unfold t_size; apply len_nonneg).
  destruct (values_n m v d e j (t_size t0) Hm H0 s1 vals s3 Hg1 EV) as [_ HN].
  rewrite R2 in HN. unfold len in HN at 1. rewrite app_length in HN. fold (len p2) in HN.
  assert (len p2 = t_size t0 * (if is_string d then 4 * Z.max 0 j else item_size d)) as -> by (unfold len in *; lia).
  assert (t_size (mk_tensor (t_shape t0) (t_strides t0) (t_fortran t0) (t_dtype t0) vals) = t_size t0) as ->.
  { pose proof (values_tracks m v d e j (t_size t0) s1 (fires_fresh m s1 Hg1)) as HT. rewrite EV in HT. destruct HT as [HT _].
    pose proof (read_values_count v d e j (t_size t0) s1 H0) as HC. rewrite HT in HC. exact HC. }
  destruct (is_string d) eqn:ES.
  - destruct (h_maxlen h) as [j'|]; [|discriminate EJ]. injection EJ as ->. reflexivity.
  - now destruct d.
Qed.
Print Assumptions C78_no_partial_tensor.

(** Saved files: whole, or not at all. *)
Definition saved_as (v2 : env) (t : tensor) (file : bytes) : Prop :=
  exists v1 e, api_tensor t /\ save_fits v1 t e /\ room v2 t /\ same_host_if_complex v1 v2 t /\
    Forall no_nuls (t_values t) /\ save v1 t e = Ok file.

Theorem C78_saved_files : forall m v2 t file g,
  armed m -> saved_as v2 t file -> prior_parses g ->
  exists g', prior_parses g' /\ takes_exactly (fun s => load_x m v2 (t_dtype t) s g) file (Ok t) g'.
Proof.
  intros m v2 t file g Hm (v1 & e & Ht & HF & HR & HC & HN & HS) Hg.
  destruct (C26_save_load_round_trip v1 v2 t e Ht HF HR HC HN) as (file' & HS' & HL). rewrite HS in HS'. injection HS' as <-.
  set (s := open_str file). destruct (HL s g [] eq_refl Hg ltac:(now rewrite app_nil_r)) as (g' & HLoad & Hg').
  exists g'. split; [exact Hg'|].
  destruct (C78_same_or_failure m v2 (t_dtype t) s g (fires_fresh m s eq_refl)) as [HA _]. rewrite HLoad in HA.
  destruct (load_x m v2 (t_dtype t) s g) as [[[|o] s'] g2] eqn:E.
  { destruct HA as (_ & _ & [HA|HA]); [discriminate|]. cbn [fst snd] in HA. rewrite fires_fresh in HA by reflexivity. discriminate. }
  destruct HA as (s2 & HA & HS2 & _). injection HA as <- <- <-. destruct HS2 as [<-|]; [|discriminate].
  destruct (load_takes m v2 (t_dtype t) s g _ _ _ Hm eq_refl E) as (p & R & _ & T).
  cbn [rest set_rest s open_str] in R. rewrite app_nil_r in R. subst p. exact T.
Qed.
Print Assumptions C78_saved_files.

(** A program that reads arrays from one stream until it throws: the types it asks for are [ds]. *)
Fixpoint load_each (m : mask) (v : env) (ds : list dtype) (s : istream) (g : globals) : list (outcome tensor) * bool :=
  match ds with
  | [] => ([], false)
  | d :: ds' =>
      match load_x m v d s g with
      | (Failure, _, _) => ([], true)
      | (Answer (Ok t), s', g') => let (l, b) := load_each m v ds' s' g' in (Ok t :: l, b)
      | (Answer o, _, _) => ([o], false)
      end
  end.

(** Any number of saved arrays, the last perhaps cut (even at its first byte, so that the stream ends between
    two arrays): every whole one is returned, then std::ios_base::failure, and nothing else. *)
Theorem C78_until_failure : forall m v2 saved t file part missing more s g,
  armed m -> Forall (fun x => saved_as v2 (fst x) (snd x)) saved ->
  saved_as v2 t file -> missing <> [] -> file = part ++ missing ->
  good s = true -> rest s = flat_map snd saved ++ part -> prior_parses g ->
  load_each m v2 (map (fun x => t_dtype (fst x)) saved ++ t_dtype t :: more) s g
    = (map (fun x => Ok (fst x)) saved, true).
Proof.
  intros m v2 saved t file part missing more s g Hm HA Ht Hmis Hfile. revert s g.
  induction saved as [|[t1 f1] saved IH]; intros s g Hs HR Hg; cbn [map app flat_map load_each fst snd] in *.
  - destruct (C78_saved_files m v2 t file g Hm Ht Hg) as (g' & _ & _ & T2).
    specialize (T2 s missing Hs Hmis ltac:(now rewrite HR)). cbv beta in T2.
    destruct (load_x m v2 (t_dtype t) s g) as [[[|o] s'] g2]; [reflexivity|discriminate].
  - inversion HA as [|? ? H1 H2]; subst. cbn [fst snd] in H1.
    destruct (C78_saved_files m v2 t1 f1 g Hm H1 Hg) as (g' & Hg' & T1 & _). cbv beta in T1.
    rewrite <- app_assoc in HR. rewrite (T1 s _ Hs HR).
    rewrite (IH H2 (set_rest s (flat_map snd saved ++ part)) g' Hs eq_refl Hg'). reflexivity.
Qed.
Print Assumptions C78_until_failure.

(** Any bytes, release build: with exceptions on, no byte that was not read is ever used.  Peeking is undefined
    only for the empty type code, loading only if the dictionary lacks 'descr' or 'fortran_order' besides. *)
Theorem C78_arbitrary_bytes : forall m v d s g, armed m -> dbg v = false -> good s = true ->
  (lacks s 10 \/ says_version_2 s /\ lacks s 12 ->
     fst (fst (peek_x m v s g)) = Failure /\ fst (fst (load_x m v d s g)) = Failure) /\
  (forall u, fst (fst (peek_x m v s g)) = Answer (Undef u) -> u = OutOfBounds) /\
  (forall u, fst (fst (load_x m v d s g)) = Answer (Undef u) ->
     u = OutOfBounds \/
     u = UninitRead /\ exists h, fst (fst (peek_x m v s g)) = Answer (Ok h) /\ (h_dtype h = None \/ h_fortran h = None)).
Proof.
  intros m v d s g Hm Hrel Hg.
  pose proof (fires_fresh m s Hg) as HF.
  destruct (C78_same_or_failure m v d s g HF) as [HL HP].
  destruct (C55_arbitrary_bytes v d s g Hrel) as (_ & _ & _ & _ & U1 & _ & U2 & _ & _).
  assert (lacks s 10 \/ says_version_2 s /\ lacks s 12 -> fst (fst (peek_x m v s g)) = Failure) as HS.
  { intros H. change (peek_x m v s g) with (parsed v g (xdict m v s)). rewrite dict_cases.
    unfold xread at 1, sread. rewrite Hg. unfold lacks, says_version_2, available in H. rewrite Hg in H.
    change STATIC_HEADER_LENGTH with 10.
    destruct (len (ztake 10 (rest s)) <? 10) eqn:E; [now rewrite fires_ended by exact Hm|].
    apply Z.ltb_ge in E. rewrite len_ztake in E.
    destruct H as [H|[[H6 H7] H]]; [lia|].
    rewrite (fires_fresh m (set_rest s _)) by exact Hg. cbv zeta.
    assert (exists x0 x1 x2 x3 x4 x5 a b l, rest s = x0 :: x1 :: x2 :: x3 :: x4 :: x5 :: 2 :: 0 :: a :: b :: l /\ len l < 2) as
      (x0 & x1 & x2 & x3 & x4 & x5 & a & b & l & -> & HLl).
    { clear - E H H6 H7. revert E H H6 H7. generalize (rest s). intros r.
      do 10 (destruct r as [|? r]; [intros; unfold len in *; cbn in *; lia|]).
      cbn [nth]. intros E H -> ->. repeat eexists. unfold len in *. cbn [length] in H. lia. }
    unfold dbg_magic. rewrite Hrel. 
    change (x0 :: x1 :: x2 :: x3 :: x4 :: x5 :: 2 :: 0 :: a :: b :: l) with ([x0; x1; x2; x3; x4; x5; 2; 0; a; b] ++ l).
    rewrite ztake_app_exact, zdrop_app_exact by reflexivity.
    change (and_then (cell_is (cells 10 [x0; x1; x2; x3; x4; x5; 2; 0; a; b]) 6 1) (cell_is (cells 10 [x0; x1; x2; x3; x4; x5; 2; 0; a; b]) 7 0)) with (@Ok bool false).
    change (and_then (cell_is (cells 10 [x0; x1; x2; x3; x4; x5; 2; 0; a; b]) 6 2) (cell_is (cells 10 [x0; x1; x2; x3; x4; x5; 2; 0; a; b]) 7 0)) with (@Ok bool true).
    unfold xread, sread. change (good (set_rest s l)) with (good s). rewrite Hg. cbn [rest set_rest].
    assert (len (ztake 2 l) <? 2 = true) as -> by (apply Z.ltb_lt; rewrite len_ztake; lia).
    rewrite fires_ended by exact Hm. reflexivity. }
  split; [|split].
  - intros H. split; [now apply HS|]. specialize (HS H). unfold load_x.
    destruct (peek_x m v s g) as [[[|o] s1] g1]; [reflexivity|discriminate].
  - intros u H. destruct (peek_x m v s g) as [[[|o] s1] g1]; [discriminate|]. cbn [fst] in H. injection H as ->.
    destruct HP as (s2 & HP & _). destruct (U1 u) as [[_ H]| ->]; [now rewrite HP| |reflexivity].
    specialize (HS H). discriminate.
  - intros u H. destruct (load_x m v d s g) as [[[|o] s1] g1] eqn:EL; [discriminate|]. cbn [fst] in H. injection H as ->.
    destruct HL as (s2 & HL & _).
    assert (fst (fst (peek_x m v s g)) = Answer (fst (fst (peek v s g)))) as HPP.
    { destruct (peek_x m v s g) as [[[|o] s3] g3] eqn:EP.
      - unfold load_x in EL. rewrite EP in EL. discriminate.
      - destruct HP as (s4 & -> & _). reflexivity. }
    destruct (U2 u ltac:(now rewrite HL)) as [H|(-> & h & H & HM)].
    + left. destruct (U1 u H) as [[_ HU]|]; [|assumption]. rewrite (HS HU) in HPP. discriminate.
    + right. split; [reflexivity|]. exists h. now rewrite HPP, H.
Qed.
Print Assumptions C78_arbitrary_bytes.

(** Three bytes of four: the default stream gives an array with a zero in it, the other throws; so does the
    end of the stream after two whole files.  An array of another type is noticed to be so before its values
    are read. *)
Definition case_tensor : tensor := mk_tensor [2] [1] false UINT16 [Scalar 258; Scalar 515].
Example C78_case :
  let file := match save case_env case_tensor NATIVE with Ok b => b | _ => [] end in
  let m := mk_mask false true in
  let g0 := (zrepeat 0 65536, DTYPE_MAP) in
  len file = 132 /\
  option_map t_values (match fst (fst (load case_env UINT16 (open_str (ztake 131 file)) g0)) with Ok t => Some t | _ => None end)
    = Some [Scalar 258; Scalar 3] /\
  fst (fst (load_x m case_env UINT16 (open_str (ztake 131 file)) g0)) = Failure /\
  fst (load_each m case_env [UINT16; UINT16; UINT16] (open_str (file ++ file)) g0) = [Ok case_tensor; Ok case_tensor] /\
  snd (load_each m case_env [UINT16; UINT16; UINT16] (open_str (file ++ file)) g0) = true /\
  fst (fst (load_x m case_env UINT8 (open_str (ztake 131 file)) g0)) = Answer (Throw RuntimeError) /\
  fst (fst (load case_env UINT8 (open_str (ztake 9 file)) g0)) = Undef UninitRead /\
  fst (fst (load_x m case_env UINT8 (open_str (ztake 9 file)) g0)) = Failure.
Proof. vm_compute. repeat split. Qed.
Example C78_case_saved : exists file, saved_as case_env case_tensor file.
Proof.
  destruct (save case_env case_tensor NATIVE) as [file| | |] eqn:E; [|vm_compute in E; discriminate..].
  exists file, case_env, NATIVE.
  assert (api_tensor case_tensor) as Ht.
  { destruct (make_tensor case_env UINT16 [2] false) eqn:EM; try (vm_compute in EM; discriminate).
    replace case_tensor with (snd (copy_from a [Scalar 258; Scalar 515])) by (vm_compute in EM; injection EM as <-; vm_compute; reflexivity).
    apply by_copy; [eapply by_ctor; [|exact EM]; repeat constructor; unfold max64; lia|].
    injection EM as <-. apply Forall_cons; [|apply Forall_cons; [|apply Forall_nil]];
      (split; [discriminate|split; [discriminate|split; [discriminate|unfold fits; cbn; lia]]]). }
  split; [exact Ht|]. split; [split; vm_compute; discriminate|]. split; [split; vm_compute; discriminate|].
  split; [intros _; reflexivity|]. split; [|exact E]. unfold case_tensor. cbn [t_values].
  apply Forall_cons; [exact I|apply Forall_cons; [exact I|apply Forall_nil]].
Qed.
