(** C57: tensors in files. *)
From Coq Require Import String ZArith List Bool Lia.
From Verif Require Import Base Stream BaseFacts Dtype Values Spec ValuesFacts Header HeaderFacts ParseFacts ParserInv ParserRel
  NpyFacts Tensor TensorFacts PropTensor Npy SaveFacts PropNpy CutFacts PropCut Files.
Import ListNotations.
Open Scope Z_scope.

(** The save that counts for path [p]: the last one. *)
Fixpoint last_save (l : list file_step) (p : bytes) (before : option (env * tensor * endian)) : option (env * tensor * endian) :=
  match l with
  | [] => before
  | FSave v t e q :: l' => last_save l' p (if beq p q then Some (v, t, e) else before)
  | _ :: l' => last_save l' p before
  end.

Lemma load_prior v d s g : prior_parses g -> prior_parses (snd (load v d s g)).
Proof.
  intros Hg. unfold load. assert (prior_parses (snd (read_npy_header v s g))) as H.
  { unfold read_npy_header. destruct (sread STATIC_HEADER_LENGTH s) as [got s1].
    match goal with |- context [match ?pre with Ok _ => _ | Throw _ => _ | AssertFail => _ | Undef _ => _ end] => destruct pre as [[n s2]|er| |u] end;
      try exact Hg.
    destruct (n >? mem v); [exact Hg|]. destruct (sread n s2) as [d0 s3].
    pose proof (prior_one v (d0 ++ zrepeat 0 (n - len d0)) g Hg) as HP.
    destruct (parse_dictionary v (d0 ++ zrepeat 0 (n - len d0)) g). exact HP. }
  destruct (read_npy_header v s g) as [[[h|x| |u] s1] g1]; try exact H. destruct (tensor_load v d h s1). exact H.
Qed.
Lemma peek_prior v s g : prior_parses g -> prior_parses (snd (peek v s g)).
Proof.
  intros Hg. pose proof (load_prior v INT8 s g Hg) as H. unfold load, peek in *.
  destruct (read_npy_header v s g) as [[[h|x| |u] s1] g1]; try exact H. destruct (tensor_load v INT8 h s1). exact H.
Qed.

(** *** C57.  Complete saves: each path holds the last tensor saved to it. *)
Theorem C57_files_hold_the_last_save : forall program k g p v1 t e v2,
  prior_parses g -> can_write k p = true ->
  last_save program p None = Some (v1, t, e) ->
  api_tensor t -> save_fits v1 t e -> room v2 t -> same_host_if_complex v1 v2 t -> Forall no_nuls (t_values t) ->
  let (k', g') := file_run program (k, g) in
  fst (load_path v2 (t_dtype t) p k' g') = Ok t /\
  exists h, fst (peek_path v2 p k' g') = Ok h /\
    h_dtype h = Some (t_dtype t) /\ h_shape h = t_shape t /\ h_fortran h = Some (t_fortran t).
Proof.
  intros program k g p v1 t e v2 Hg Hw Hl Ht HF HR HC HN.
  assert (forall l k g (before : option (env * tensor * endian)), prior_parses g -> can_write k p = true ->
    (forall v t e, before = Some (v, t, e) -> exists b, save v t e = Ok b /\ file_at k p = Some b) ->
    forall k' g', file_run l (k, g) = (k', g') -> prior_parses g' /\
      forall v t e, last_save l p before = Some (v, t, e) -> exists b, save v t e = Ok b /\ file_at k' p = Some b) as H.
  { clear. induction l as [|x l IH]; intros k g before Hg Hw HB k' g' HR.
    - injection HR as <- <-. auto.
    - cbn [file_run fold_left] in HR. change (fold_left _ l ?s) with (file_run l s) in HR.
      destruct x as [v t e q|v d q|v q]; cbn [file_run1 last_save] in *.
      + destruct (save_path v t e q _ k) as [o k1] eqn:E. cbn [snd] in HR.
        assert (exists file, save v t e = Ok file) as [file Hf] by (eexists; apply save_file).
        unfold save_path in E. rewrite Hf in E.
        apply (IH k1 g (if beq p q then Some (v, t, e) else before) Hg) in HR; [exact HR| |].
        * destruct (can_write k q); injection E as <- <-; exact Hw.
        * intros v0 t0 e0 H0. destruct (beq p q) eqn:Ep.
          -- injection H0 as <- <- <-. apply beq_eq in Ep. subst q. rewrite Hw in E. injection E as <- <-.
             exists file. split; [exact Hf|]. unfold disk_put. cbn [file_at].
             assert (beq p p = true) as -> by now apply beq_eq. rewrite ztake_all by lia. reflexivity.
          -- destruct (HB _ _ _ H0) as (b & Hb & Hfa). exists b. split; [exact Hb|].
             destruct (can_write k q); injection E as <- <-; [|exact Hfa]. unfold disk_put. cbn [file_at]. now rewrite Ep.
      + apply (IH k _ before) in HR; [exact HR| |exact Hw|exact HB].
        unfold load_path. destruct (file_at k q) as [b|]; [|exact Hg]. pose proof (load_prior v d (open_file b) g Hg) as H.
        destruct (load v d (open_file b) g) as [[? ?] ?]. exact H.
      + apply (IH k _ before) in HR; [exact HR| |exact Hw|exact HB].
        unfold peek_path. destruct (file_at k q) as [b|]; [|exact Hg]. pose proof (peek_prior v (open_file b) g Hg) as H.
        destruct (peek v (open_file b) g) as [[? ?] ?]. exact H. }
  destruct (file_run program (k, g)) as [k' g'] eqn:E.
  destruct (H program k g None Hg Hw ltac:(discriminate) k' g' E) as [Hg' HS].
  destruct (HS _ _ _ Hl) as (b & Hb & Hfa). unfold load_path, peek_path. rewrite Hfa.
  destruct (C26_save_load_round_trip v1 v2 t e Ht HF HR HC HN) as (file & HS' & HL).
  assert (file = b) as -> by congruence.
  destruct (HL (open_file b) g' [] eq_refl Hg' ltac:(cbn; now rewrite app_nil_r)) as (g2 & HL2 & _).
  destruct (C29_peek_agrees_with_load _ _ _ _ _ _ _ HL2) as (h & s1 & HP & E1 & E2 & E3 & E4).
  rewrite HL2, HP. cbn [fst]. split; [reflexivity|]. exists h. auto.
Qed.
Print Assumptions C57_files_hold_the_last_save.

(** Faults: a path that cannot be written is reported and nothing changes; a full disk
    or a crash is not reported, and the previous contents are gone. *)
Theorem C57_faults : forall v1 t e p taken k file,
  save v1 t e = Ok file ->
  (can_write k p = false -> save_path v1 t e p taken k = (Throw InvalidArgument, k)) /\
  (can_write k p = true ->
     fst (save_path v1 t e p taken k) = Ok tt /\
     file_at (snd (save_path v1 t e p taken k)) p = Some (ztake taken file) /\
     forall q, q <> p -> file_at (snd (save_path v1 t e p taken k)) q = file_at k q) /\
  (* what a later load makes of it *)
  (forall v2 g, can_write k p = true -> 0 <= taken < len file ->
     api_tensor t -> save_fits v1 t e -> room v2 t -> same_host_if_complex v1 v2 t -> Forall no_nuls (t_values t) ->
     prior_parses g ->
     let loaded := fst (load_path v2 (t_dtype t) p (snd (save_path v1 t e p taken k)) g) in
     (taken < 10 -> loaded = Undef UninitRead) /\
     (10 <= taken -> ~ In 125 (ztake taken file) -> forall t', loaded <> Ok t') /\
     (In 125 (ztake taken file) -> exists t', loaded = Ok t' /\ t_shape t' = t_shape t /\ t_size t' = t_size t)).
Proof.
  intros v1 t e p taken k file HS. unfold save_path. rewrite HS. split; [intros ->; reflexivity|]. split.
  - intros ->. cbn [fst snd disk_put file_at]. assert (beq p p = true) as -> by now apply beq_eq.
    split; [reflexivity|]. split; [reflexivity|]. intros q Hq.
    destruct (beq q p) eqn:E; [apply beq_eq in E; congruence|reflexivity].
  - intros v2 g -> HT Ht HF HR HC HN Hg. cbn [snd]. unfold load_path. cbn [disk_put file_at].
    assert (beq p p = true) as -> by now apply beq_eq.
    destruct (C54_interrupted_saves v1 v2 t e file taken (open_file (ztake taken file)) g Ht HF HR HC HN HS HT eq_refl Hg eq_refl)
      as (H1 & H2 & H3).
    destruct (load v2 (t_dtype t) (open_file (ztake taken file)) g) as [[o s'] g']. cbn [fst] in *. cbv zeta.
    split; [intros H; now apply H1|]. split; [intros H Hn; now apply H2|].
    intros HI. destruct (H3 HI) as [(t' & E1 & E2 & _ & _ & E3 & _) _]. eauto.
Qed.
Print Assumptions C57_faults.
(** No file: an exception. *)
Theorem C57_missing_files : forall v d p k g, file_at k p = None ->
  load_path v d p k g = (Throw InvalidArgument, g) /\ peek_path v p k g = (Throw InvalidArgument, g).
Proof. intros v d p k g H. unfold load_path, peek_path. now rewrite H. Qed.
Print Assumptions C57_missing_files.
Example C57_case :
  let k := mk_disk (fun _ => None) (fun p => beq p (str "a.npy")) in
  let program := [FSave case_env case_tensor LITTLE (str "b.npy"); FLoad case_env INT8 (str "a.npy");
                  FSave case_env case_tensor BIG (str "a.npy"); FPeek case_env (str "a.npy")] in
  can_write k (str "a.npy") = true /\ last_save program (str "a.npy") None = Some (case_env, case_tensor, BIG) /\
  api_tensor case_tensor /\ save_fits case_env case_tensor BIG /\ room case_env case_tensor.
Proof.
  cbv zeta. split; [reflexivity|]. split; [reflexivity|]. destruct C26_case as (H1 & H2 & H3 & _). auto.
Qed.
