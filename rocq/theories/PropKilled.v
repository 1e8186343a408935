(** Property C76: a process that is killed inside a call. *)
From Coq Require Import String ZArith List Bool Lia.
From Verif Require Import Base Stream BaseFacts Dtype Values Spec Header ParserInv Tensor Npy TensorVars Files Npz ZipFiles Arr Tinfl Tdefl PropCompress
  PropTensor PropDisk PropOthers Program ProgramSpec ProgServe PropProgram Sessions SessionSpec PropSessions.
Import ListNotations.
Open Scope Z_scope.

Lemma begun_follows v c ty F k : (forall p, sim_file (F p) (file_at k p)) -> follows v c (can_write k) ty (begun F) (fresh_machine ty k).
Proof.
  intros H. unfold follows, begun, fresh_machine. cbn [vars files archivers snapshots m_vars m_disk m_writers m_readers m_globals].
  split; [intros i; exists false; reflexivity|]. split; [split; [reflexivity|exact H]|]. split; [|split; [intros r; exact I|constructor]].
  split; [reflexivity|]. intros. discriminate.
Qed.
Lemma covered_app mem big opens ty a b : forall w, all_covered mem big opens ty (a ++ b) w ->
  all_covered mem big opens ty a w /\ all_covered mem big opens ty b (snd (ideally mem opens ty a w)).
Proof.
  induction a as [|x a IH]; intros w H; [split; [exact I|exact H]|]. cbn [app all_covered ideally] in *. destruct H as [H1 H2].
  destruct (IH _ H2) as [H3 H4]. split; [auto|]. destruct (ideal mem opens ty x w) as [o w1]. cbn [snd] in *. now destruct (ideally mem opens ty a w1).
Qed.
Lemma put_elsewhere k p b q : q <> p -> file_at (disk_put k p b) q = file_at k q.
Proof. intros H. cbn [disk_put file_at]. destruct (beq q p) eqn:E; [apply beq_eq in E; contradiction|reflexivity]. Qed.
(** A whole call changes only the files it may be writing. *)
Lemma exec_writes v c opens ty w s x p : follows v c opens ty w s -> ~ in_flight w x p ->
  file_at (m_disk (snd (exec v c ty x s))) p = file_at (m_disk s) p.
Proof.
  intros (_ & _ & (HW & _) & _) HN.
  assert (forall h fw (k : disk), m_writers s h = Some fw -> ~ open_archive w h p -> fw_open fw = true -> fw_path fw <> p) as HO.
  { intros h fw _ E HX HF EP. specialize (HW h). destruct (archivers w h) as [y|] eqn:EA; [|congruence].
    destruct HW as (fw' & E' & HP & HO & _). rewrite E in E'. injection E' as <-. rewrite HF in HO. symmetry in HO. apply andb_true_iff in HO as [H1 H2].
    apply negb_true_iff in H2. apply HX. exists y. repeat split; try assumption. congruence. }
  assert (forall h fw k, m_writers s h = Some fw -> ~ open_archive w h p -> file_at (fw_destroy fw k) p = file_at k p) as HDs.
  { intros h fw k E HX. unfold fw_destroy, fw_close. destruct (w_closed (fw_w fw)); [reflexivity|]. cbn [snd].
    destruct (fw_open fw) eqn:EO; [|reflexivity]. apply put_elsewhere. intros ->. exact (HO h fw k E HX EO eq_refl). }
  destruct x as [a|i index|i|i e q|i q|q|h d q m e|h name i|h|h|r q|i r name|r name|r name|r]; cbn [exec in_flight] in *.
  - destruct (act v (ty (target a)) a (m_vars s)); reflexivity.
  - reflexivity.
  - reflexivity.
  - unfold save_path. destruct (can_write (m_disk s) q); [|reflexivity]. destruct (save v (m_vars s i) e); cbn [obind snd on_disk_only m_disk]; now apply put_elsewhere.
  - destruct (load_path v (ty i) q (m_disk s) (m_globals s)) as [o g']. destruct o; reflexivity.
  - destruct (peek_path v q (m_disk s) (m_globals s)) as [o g']. destruct o; reflexivity.
  - assert (forall k, file_at (match m_writers s h with Some fw => fw_destroy fw k | None => k end) p = file_at k p) as HX.
    { intros k. destruct (m_writers s h) as [fw|] eqn:E; [|reflexivity]. apply (HDs h fw k E). tauto. }
    unfold fw_new. cbn [fst snd on_writer m_disk].
    destruct (can_write (match m_writers s h with Some fw => fw_destroy fw (m_disk s) | None => m_disk s end) q); [rewrite put_elsewhere by tauto|]; apply HX.
  - destruct (m_writers s h) as [fw|] eqn:E; [|reflexivity]. unfold fw_write. destruct (w_write_on _ _ _ _ _ _); cbn [snd on_writer m_disk]; try reflexivity.
    destruct (fw_open fw) eqn:EO; [|reflexivity]. apply put_elsewhere. intros ->. exact (HO h fw (m_disk s) E HN EO eq_refl).
  - destruct (m_writers s h) as [fw|] eqn:E; [|reflexivity]. unfold fw_close. destruct (w_closed (fw_w fw)); cbn [snd on_writer m_disk]; [reflexivity|].
    destruct (fw_open fw) eqn:EO; [|reflexivity]. apply put_elsewhere. intros ->. exact (HO h fw (m_disk s) E HN EO eq_refl).
  - destruct (m_writers s h) as [fw|] eqn:E; [|reflexivity]. cbn [snd m_disk]. exact (HDs h fw (m_disk s) E HN).
  - destruct (fr_open q (m_disk s)); reflexivity.
  - destruct (m_readers s r) as [y|]; [|reflexivity]. destruct (r_read v c (ty i) y name (m_globals s)) as [[o y'] g']. destruct o; reflexivity.
  - destruct (m_readers s r) as [y|]; [|reflexivity]. destruct (r_peek v c y name (m_globals s)) as [[o y'] g']. destruct o; reflexivity.
  - destruct (m_readers s r); reflexivity.
  - destruct (m_readers s r); reflexivity.
Qed.

(** ** The property *)
(** [program] has run and the process is inside the call [x] when it is killed. *)
Theorem C76_killed_inside_a_call : forall v c ty F k program x,
  libnpy_codec v c -> 2 ^ 32 <= mem v -> (forall p, holds (F p) (file_at k p)) ->
  all_covered (mem v) (host_big v) (can_write k) ty (program ++ [x]) (begun F) ->
  let w := snd (ideally (mem v) (can_write k) ty program (begun F)) in
  exists s, execute v c ty program (fresh_machine ty k) = Ok (fst (ideally (mem v) (can_write k) ty program (begun F)), s) /\
    (* the call, if it comes to its end, writes no other files *)
    torn w x (file_at (m_disk s)) (file_at (m_disk (snd (exec v c ty x s)))) /\
    (* later runs *)
    forall k1 F' later, torn w x (file_at (m_disk s)) k1 -> knows_torn w x F' -> sessions_covered later F' ->
      exists k2, run_sessions later k1 = Ok (ideal_sessions later F', k2).
Proof.
  intros v c ty F k program x HC HM HF HA w. apply covered_app in HA as [HA1 HA2].
  destruct (programs_follow v c (can_write k) ty program HC HM _ _ (begun_follows v c ty F k (fun p => holds_sim _ _ (HF p))) HA1) as (s & E & HS).
  exists s. split; [exact E|]. fold w in HS. split; [intros p HN; exact (exec_writes v c _ ty w s x p HS HN)|].
  intros k1 F' later HT HK HL. apply sessions_follow; [|exact HL]. intros p. destruct (HK p) as [[_ ->]|[HN ->]]; [exact I|].
  rewrite (HT p HN). apply HS.
Qed.
Print Assumptions C76_killed_inside_a_call.

(** So a file can be replaced safely: save to another path, then rename. Whenever the
    process is killed, a later run loads the old array or the new one. *)
Theorem C76_replace_by_rename : forall v c ty F k program i e tmp final old new v2 c2 ty2 opens2 j,
  libnpy_codec v c -> 2 ^ 32 <= mem v -> (forall p, holds (F p) (file_at k p)) ->
  all_covered (mem v) (host_big v) (can_write k) ty (program ++ [SSave i e tmp]) (begun F) ->
  let w := snd (ideally (mem v) (can_write k) ty program (begun F)) in
  files w final = Some (Holds old) -> vars w i = Some new -> can_write k tmp = true -> tmp <> final ->
  libnpy_codec v2 c2 -> 2 ^ 32 <= mem v2 ->
  let loads y k1 := ty2 j = a_type y -> product (a_shape y) * item_size (a_type y) <= mem v2 ->
    exists k2, run_sessions [mk_session v2 c2 ty2 opens2 [SLoad j final; SList j] []] k1 = Ok ([[Done; SawAll (elements y)]], k2) in
  exists s, execute v c ty program (fresh_machine ty k) = Ok (fst (ideally (mem v) (can_write k) ty program (begun F)), s) /\
    (* killed before or inside the save, or before the rename *)
    (forall k1, torn w (SSave i e tmp) (file_at (m_disk s)) k1 -> loads old k1) /\
    loads old (file_at (m_disk (snd (exec v c ty (SSave i e tmp) s)))) /\
    (* after the rename *)
    loads new (outside_step (file_at (m_disk (snd (exec v c ty (SSave i e tmp) s)))) (Renamed tmp final)).
Proof.
  intros v c ty F k program i e tmp final old new v2 c2 ty2 opens2 j HC HM HF HA w HO HN HW HD HC2 HM2 loads.
  destruct (C76_killed_inside_a_call v c ty F k program (SSave i e tmp) HC HM HF HA) as (s & E & HT & HL). fold w in HT, HL.
  assert (forall F' y k1, F' final = Some (Holds y) ->
    (forall later, sessions_covered later F' -> exists k2, run_sessions later k1 = Ok (ideal_sessions later F', k2)) -> loads y k1) as HG.
  { intros F' y k1 EF HS EJ EM.
    assert (received (mem v2) (ty2 j) y = inr y) as ER.
    { unfold received. rewrite EJ. destruct (product (a_shape y) * item_size (a_type y) >? mem v2) eqn:X; [apply Z.gtb_lt in X; lia|]. now destruct (a_type y). }
    destruct (HS [mk_session v2 c2 ty2 opens2 [SLoad j final; SList j] []]) as (k2 & HR).
    - cbn [sessions_covered s_env s_codec s_types s_opens s_program s_after all_covered covered]. split; [exact HC2|]. split; [exact HM2|].
      split; [|split; [constructor|exact I]]. split; [|split; [|exact I]].
      + cbn [begun files]. intros z Hz. rewrite EF in Hz. injection Hz as <-. eauto.
      + cbn [ideal begun files]. rewrite EF, ER. cbn [snd set_var vars]. rewrite Nat.eqb_refl. discriminate.
    - exists k2. rewrite HR. unfold ideal_sessions, ideal_run. cbn [s_env s_opens s_types s_program ideally ideal begun files]. rewrite EF, ER.
      cbn [set_var vars]. rewrite Nat.eqb_refl. reflexivity. }
  exists s. split; [exact E|].
  assert (forall k1, torn w (SSave i e tmp) (file_at (m_disk s)) k1 -> loads old k1) as HOld.
  { intros k1 HK. apply (HG (fun p => if beq p tmp then Some Unknown else files w p)).
    - destruct (beq final tmp) eqn:X; [apply beq_eq in X; congruence|exact HO].
    - intros later HCo. apply (HL k1 _ later HK); [|exact HCo]. intros p. cbn [in_flight]. destruct (beq p tmp) eqn:X; [left; apply beq_eq in X; auto|].
      right. split; [|reflexivity]. intros ->. rewrite beq_refl in X. discriminate. }
  split; [exact HOld|]. split; [exact (HOld _ HT)|].
  apply covered_app in HA as [HA1 HA2]. fold w in HA2. cbn [all_covered] in HA2. destruct HA2 as [HA2 _].
  destruct (programs_follow v c (can_write k) ty program HC HM _ _ (begun_follows v c ty F k (fun p => holds_sim _ _ (HF p))) HA1) as (s0 & E0 & HS).
  rewrite E in E0. injection E0 as <-. fold w in HS.
  destruct (step_follows v c (can_write k) ty (SSave i e tmp) w s HC HM HS HA2) as (s' & E' & (_ & (_ & HFi) & _)). rewrite E'. cbn [snd].
  cbn [ideal] in HFi. rewrite HW, HN in HFi. cbn [snd set_file files] in HFi.
  set (F1 := fun q => if beq q tmp then Some (Holds new) else files w q) in *.
  apply (HG (ideal_outside F1 (Renamed tmp final))).
  - cbn [ideal_outside]. unfold F1 at 1. rewrite beq_refl, beq_refl. reflexivity.
  - intros later HCo. apply sessions_follow; [|exact HCo]. apply outside_sim; [exact HFi|exact I].
Qed.
Print Assumptions C76_replace_by_rename.

(** Cases: killed while an archive is closed, with another file saved before; and a file of
    another program replaced. *)
Definition killed_program : list step :=
  [SLoad 0 (str "n.npy"); SVar (ASet 0 [1; 0] (WStr [66])); SSave 0 BIG (str "m.npy");
   SNew 0 (case_device (2 ^ 40)) (str "q.npz") DEFLATED LITTLE; SWrite 0 (str "s") 0].
Definition killed_knows : knowledge := fun p =>
  if beq p (str "q.npz") then Some Unknown
  else files (snd (ideally (mem case_env) (fun _ => true) session_types killed_program (begun case_known))) p.
Definition killed_later : list session :=
  [mk_session release (codec_on release) session_types (fun _ => true)
     [SLoad 0 (str "m.npy"); SGet 0 [1; 0]; SLoad 0 (str "n.npy"); SGet 0 [1; 0]; SNew 0 (case_device (2 ^ 40)) (str "q.npz") STORED BIG;
      SWrite 0 (str "s") 0; SEnd 0; SOpen 0 (str "q.npz"); SKeys 0] []].
Example C76_case :
  all_covered (mem case_env) false (fun _ => true) session_types (killed_program ++ [SClose 0]) (begun case_known) /\
  let w := snd (ideally (mem case_env) (fun _ => true) session_types killed_program (begun case_known)) in
  knows_torn w (SClose 0) killed_knows /\ in_flight w (SClose 0) (str "q.npz") /\ sessions_covered killed_later killed_knows /\
  ideal_sessions killed_later killed_knows = [[Done; Saw (WStr [66]); Done; Saw (WStr []); Done; Done; Done; Done; SawKeys [str "s.npy"]]] /\
  (* replacing *)
  all_covered (mem case_env) false (fun _ => true) session_types (killed_program ++ [SSave 0 LITTLE (str "tmp.npy")]) (begun case_known) /\
  files w (str "n.npy") = Some (Holds case_strings) /\
  option_map elements (vars w 0%nat) = Some [WStr [0x41; 0x1F600]; WStr [66]].
Proof.
  assert (forall v opens x l w, covered false opens session_types x w ->
      all_covered (mem v) false opens session_types l (snd (ideal (mem v) opens session_types x w)) ->
      all_covered (mem v) false opens session_types (x :: l) w) as HS by (intros v opens x l w H1 H2; exact (conj H1 H2)).
  assert (forall x, covered false (fun _ => true) session_types x (snd (ideally (mem case_env) (fun _ => true) session_types killed_program (begun case_known))) ->
    all_covered (mem case_env) false (fun _ => true) session_types (killed_program ++ [x]) (begun case_known)) as HP.
  { intros x Hx. cbn [killed_program app].
    apply (HS case_env); [is_there|].
    apply (HS case_env); [split; [repeat constructor; unfold fits; cbn; lia|split; [small|vm_compute; congruence]]|].
    apply (HS case_env); [intros _; split; [nobody|eexists; split; [reflexivity|record]]|].
    apply (HS case_env); [split; [now right|split; [vm_compute; congruence|intros w1 _; nobody]]|].
    apply (HS case_env); [put_member|].
    apply (HS case_env); [exact Hx|exact I]. }
  split; [apply HP; vm_compute; congruence|]. intros w.
  assert (forall p, open_archive w 0 p <-> p = str "q.npz") as HO.
  { intros p. unfold open_archive. split.
    - intros (y & H1 & _ & _ & H2). apply (f_equal (option_map ar_path)) in H1. cbn [option_map] in H1. rewrite H2 in H1.
      assert (option_map ar_path (archivers w 0%nat) = Some (str "q.npz")) as HX by (vm_compute; reflexivity). rewrite HX in H1. congruence.
    - intros ->. eexists. repeat split. }
  split.
  { intros p. cbn [in_flight]. rewrite HO. unfold killed_knows. fold w. destruct (beq p (str "q.npz")) eqn:X; [left; apply beq_eq in X; auto|].
    right. split; [|reflexivity]. intros ->. rewrite beq_refl in X. discriminate. }
  split; [cbn [in_flight]; now apply HO|]. split.
  - unfold killed_later. cbn [sessions_covered s_env s_codec s_types s_opens s_program s_after].
    split. { split; [reflexivity|]. split; [reflexivity|]. intros b. exists arr_empty, arr_empty, arr_empty. split; [|reflexivity].
      intros i Hi. rewrite arr_get_empty. lia. }
    split; [vm_compute; congruence|]. split; [|split; [constructor|exact I]].
    apply (HS release); [is_there|].
    apply (HS release); [split; [small|vm_compute; congruence]|].
    apply (HS release); [is_there|].
    apply (HS release); [split; [small|vm_compute; congruence]|].
    apply (HS release); [split; [now left|split; [vm_compute; congruence|intros w1 _; nobody]]|].
    apply (HS release); [put_member|].
    apply (HS release); [vm_compute; congruence|].
    apply (HS release); [is_there|].
    apply (HS release); [vm_compute; congruence|]. exact I.
  - split; [vm_compute; reflexivity|]. split; [|split; [reflexivity|vm_compute; reflexivity]].
    apply HP. intros _. split; [|eexists; split; [reflexivity|record]]. split.
    + intros h y H1 _ _ HE. apply (f_equal (option_map ar_path)) in H1. cbn [option_map] in H1. rewrite HE in H1.
      destruct h as [|h]; vm_compute in H1; discriminate H1.
    + intros r q items H. vm_compute in H. discriminate H.
Qed.
