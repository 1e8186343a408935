(** Property C75: files outlive programs, and come from other programs. *)
From Coq Require Import String ZArith List Bool Lia Permutation.
From Verif Require Import Base Stream BaseFacts Dtype Values Spec ZipSpec ValuesFacts PropValues Header HeaderFacts ParseFacts ParserInv
  NpyFacts PropHeader Tensor Npy TensorFacts PropTensor SaveFacts PropNpy PropForeign TensorVars Files
  Crc PropCrc Npz NpzFacts ArchiveFacts PropNpz ForeignZip ZipFiles PropDisk Arr DeflateSpec Tinfl Tdefl BitFacts InflTop PropDeflate DeflTop PropCompress PropOthers
  Program ProgramSpec ProgFacts ProgArch ProgServe PropProgram Sessions SessionSpec.
Import ListNotations.
Open Scope Z_scope.

(** ** Files of other programs *)
Lemma elements_len a : shape_ok (a_shape a) -> len (elements a) = product (a_shape a).
Proof. intros H. rewrite elements_order. unfold len. rewrite map_length. exact (order_length (a_fortran a) _ H). Qed.
Lemma npy_file_serves v a b : usual v -> npy_file a b -> npy_serves v b a.
Proof.
  intros [HL HM] (HB & es & tail & big & n & start & following & HLay & HP & Hn & Hs & HT & H64 & Hv & HN & Hm & HC & HSt & ->) s g G R Hg.
  pose proof (C13_key_order_and_blanks_ignored v g es tail _ (a_type a) _ _ (a_fortran a) (a_shape a) Hg HLay HP (spelled_denotes (a_type a) big n Hn) Hs HT) as HD.
  assert (len (dict_text es tail) <= mem v) as HM1.
  { change (2 ^ 32) with 4294967296 in HM. destruct HSt as [HSt|HSt]; [change (2 ^ 16) with 65536 in HSt|change (2 ^ 31) with 2147483648 in HSt]; lia. }
  pose proof (read_start v s g _ start _ G HSt HM1 R) as HH. rewrite HD in HH.
  set (g' := snd (parse_dictionary v (dict_text es tail) g)) in *.
  assert (prior_parses g') as Hg' by now constructor.
  assert (get_size (a_shape a) = product (a_shape a)) as EG.
  { rewrite get_size_product by exact Hs. apply Z.mod_small. split; [now apply product_nonneg|exact H64]. }
  split.
  - intros d. unfold received. destruct (product (a_shape a) * item_size d >? mem v) eqn:EM; [|destruct (dtype_eqb d (a_type a)) eqn:ED].
    + eexists. exists g'. split; [exact Hg'|]. unfold load. rewrite HH. unfold tensor_load. cbn [h_fortran h_dtype h_shape field obind].
      unfold make_tensor. rewrite EG, EM. reflexivity.
    + assert (d = a_type a) as -> by (destruct d, (a_type a); (reflexivity || discriminate)).
      destruct (C51_files_of_other_writers v s g es tail (a_type a) big n (a_fortran a) (a_shape a) (elements a) start following G Hg HLay HP Hn Hs HT Hv
        HN Hm (elements_len a Hs) H64 ltac:(intros HX; rewrite HL; now apply HC) HSt R HM1 ltac:(rewrite elements_len by exact Hs; lia))
        as (t & g2 & HLd & Hg2 & E1 & E2 & E3 & E4).
      eexists. exists g2. split; [exact Hg2|]. exists t. split; [exact HLd|]. split; [|reflexivity].
      split; [eapply by_load; [|exact Hg|exact HLd]; rewrite R; exact HB|]. auto.
    + eexists. exists g'. split; [exact Hg'|]. unfold load. rewrite HH. unfold tensor_load. cbn [h_fortran h_dtype h_shape field obind].
      unfold make_tensor. rewrite EG, EM. cbn [obind].
      assert (dtype_eqb (a_type a) d = false) as -> by (clear - ED; destruct d, (a_type a); (reflexivity || discriminate)). reflexivity.
  - eexists. eexists. exists g'. split; [exact Hg'|]. unfold peek. rewrite HH. split; [reflexivity|]. reflexivity.
Qed.
Lemma member_both items ms n : Forall2 npz_member items ms ->
  match resolve items n, member_named ms n with
  | Some y, Some m => exists k, npz_member (k, y) m
  | None, None => True
  | _, _ => False
  end.
Proof.
  intros HF. unfold resolve, member_named. cbv zeta.
  assert (forall k, match last_filed (map (fun p => (npy_name (fst p), snd p)) items) k, last_filed (map (fun m => (z_name m, m)) ms) k with
    | Some y, Some m => exists k, npz_member (k, y) m
    | None, None => True
    | _, _ => False end) as H.
  { intros k. induction HF as [|p m items ms Hp HF IH]; [exact I|]. cbn [map last_filed fst snd] in *.
    pose proof Hp as (E1 & E2 & _). rewrite E2, E1. destruct (last_filed _ k), (last_filed (map _ ms) k); try contradiction; try exact IH.
    destruct (beq _ k); [|exact I]. exists (fst p). now destruct p. }
  pose proof (H n) as H1. pose proof (H (n ++ str ".npy")) as H2.
  destruct (last_filed _ n), (last_filed (map _ ms) n); try contradiction; [exact H1|exact H2].
Qed.
Lemma member_names items ms : Forall2 npz_member items ms -> map z_name ms = map (fun p => npy_name (fst p)) items.
Proof. intros HF. induction HF as [|p m items ms (E1 & E2 & _) HF IH]; [reflexivity|]. cbn [map]. now rewrite E1, E2, IH. Qed.
Lemma npz_file_answers v c items b ms r0 rd : usual v -> c_inflate c = npy_inflate -> zip_file b ms -> Forall2 npz_member items ms ->
  opened b r0 -> reader_after v c r0 rd -> reader_answers v c items (reader_after v c r0) rd.
Proof.
  intros [HL HM] HI HZ HF HO HR.
  assert (forall n g, match resolve items n with
    | None => forall d, r_read v c d rd n g = (Throw InvalidArgument, rd, g) /\ r_peek v c rd n g = (Throw InvalidArgument, rd, g)
    | Some y => exists b r2, npy_serves v b y /\
         (let '(o, _, g') := peek v (open_str b) g in r_peek v c rd n g = (o, r2, g')) /\
         (forall d, let '(o, _, g') := load v d (open_str b) g in r_read v c d rd n g = (o, r2, g'))
    end) as HB.
  { intros n g. pose proof (member_both items ms n HF) as HB. pose proof (C53_members_are_found_and_decoded v c b ms r0 rd n g HI HZ HO HR) as HX.
    destruct (resolve items n) as [y|], (member_named ms n) as [m|]; try contradiction.
    - destruct HB as (k & _ & _ & f & Hf & HU & HC & HLf & HLd & HNr). destruct HX as [_ HX].
      destruct (HX f HU (fun _ => HL) (proj1 Hf) HLf ltac:(lia)) as (r2 & Hr). exists f, r2.
      assert (forall d, (let '(o, _, g') := peek v (open_str f) g in r_peek v c rd n g = (o, r2, g')) /\
        (let '(o, _, g') := load v d (open_str f) g in r_read v c d rd n g = (o, r2, g'))) as HA.
      { intros d. destruct (Hr d) as [_ [(_ & H1 & H2)|([HBad|[H8 HBad]] & _)]]; [auto|contradiction|destruct (HNr H8 HBad)]. }
      split; [now apply npy_file_serves|]. split; [apply (HA INT8)|intros d; apply HA].
    - destruct HX as [H1 H2]. intros d. auto. }
  assert (forall n g d, reader_after v c r0 (snd (fst (r_read v c d rd n g))) /\ reader_after v c r0 (snd (fst (r_peek v c rd n g)))) as HAf
    by (intros n g d; split; now constructor).
  split; [|split; [|split]].
  - intros d n g Hg. specialize (HB n g). destruct (HAf n g d) as [HA _]. destruct (resolve items n) as [y|].
    + destruct HB as (f & r2 & HS & _ & HRd). specialize (HRd d). destruct (HS (open_str f) g eq_refl eq_refl Hg) as [HLo _].
      destruct (HLo d) as (s' & g' & Hg' & HLd). exists r2, g'. split; [exact Hg'|]. destruct (received (mem v) d y) as [x|y'].
      * rewrite HLd in HRd. rewrite HRd in HA. split; [exact HA|exact HRd].
      * destruct HLd as (t & HLd & K1 & K2). rewrite HLd in HRd. rewrite HRd in HA. split; [exact HA|]. exists t. auto.
    + exists rd, g. split; [exact Hg|]. split; [exact HR|]. apply HB.
  - intros n g Hg. specialize (HB n g). destruct (HAf n g INT8) as [_ HA]. destruct (resolve items n) as [y|].
    + destruct HB as (f & r2 & HS & HPk & _). destruct (HS (open_str f) g eq_refl eq_refl Hg) as [_ (h & s' & g' & Hg' & EP & EH)].
      rewrite EP in HPk. rewrite HPk in HA. exists r2, g'. split; [exact Hg'|]. split; [exact HA|]. eauto.
    + exists rd, g. split; [exact Hg|]. split; [exact HR|]. apply (HB INT8).
  - intros n. destruct (opened_zip b ms r0 (proj1 HZ) HO) as [HS _]. destruct (after_serves v c b ms r0 rd HZ HS HR) as [HS' _].
    apply eq_true_iff_eq. rewrite (contains_serves b ms rd n HS'), (member_names _ _ HF), existsb_exists, in_map_iff.
    split; intros (p & E1 & E2); exists p; (split; [|]); try assumption; try (apply beq_eq; assumption).
  - destruct (opened_zip b ms r0 (proj1 HZ) HO) as [HS HK]. destruct (after_serves v c b ms r0 rd HZ HS HR) as [_ HK'].
    rewrite HK', HK, (member_names _ _ HF), sort_names. reflexivity.
Qed.
Lemma npz_file_serves v c items b : usual v -> c_inflate c = npy_inflate -> npz_file items b -> npz_serves v c b items.
Proof.
  intros HU HI (ms & HZ & HF). destruct (C53_archives_of_other_programs_open b ms (proj1 HZ)) as (_ & (r0 & HR0) & _).
  exists r0. split; [exact HR0|]. exists (reader_after v c r0). split; [constructor|]. intros rd HR.
  exact (npz_file_answers v c items b ms r0 rd HU HI HZ HF (or_intror HR0) HR).
Qed.
Lemma holds_sim z f : holds z f -> sim_file z f.
Proof.
  destruct z as [[a|items|]|]; cbn [holds sim_file]; destruct f as [b|]; try contradiction; try tauto; intros H; exists b; (split; [reflexivity|]).
  - intros v HU. now apply npy_file_serves.
  - intros v c HU HI. now apply npz_file_serves.
Qed.

(** ** Between the runs *)
Lemma outside_sim F k x : (forall p, sim_file (F p) (k p)) -> outside_ok x -> forall p, sim_file (ideal_outside F x p) (outside_step k x p).
Proof.
  intros H HO q. destruct x as [p p'|p|p p'|p b z]; cbn [ideal_outside outside_step outside_ok] in *.
  - pose proof (H p) as Hp. destruct (F p) as [z|].
    + unfold known_at. destruct (k p) as [b|] eqn:EK.
      * unfold write_to. destruct (beq q p'); [exact Hp|apply H].
      * destruct (beq q p'); [|apply H]. destruct z; cbn [sim_file] in *; [destruct Hp as (b & Hp & _); discriminate|destruct Hp as (b & Hp & _); discriminate|exact I].
    + cbn [sim_file] in Hp. rewrite Hp. apply H.
  - destruct (beq q p); [reflexivity|apply H].
  - pose proof (H p) as Hp. destruct (F p) as [z|].
    + destruct (k p) as [b|] eqn:EK.
      * destruct (beq q p'); [exact Hp|]. destruct (beq q p); [reflexivity|apply H].
      * destruct (beq q p'); [|destruct (beq q p) eqn:E; [apply beq_eq in E; subst q; exact EK|apply H]].
        destruct z; cbn [sim_file] in *; [destruct Hp as (b & Hp & _); discriminate|destruct Hp as (b & Hp & _); discriminate|exact I].
    + cbn [sim_file] in Hp. rewrite Hp. apply H.
  - unfold known_at, write_to. destruct (beq q p); [now apply holds_sim|apply H].
Qed.
Lemma outsides_sim l : forall F k, (forall p, sim_file (F p) (k p)) -> Forall outside_ok l ->
  forall p, sim_file (fold_left ideal_outside l F p) (fold_left outside_step l k p).
Proof.
  induction l as [|x l IH]; intros F k H HO; [exact H|]. apply Forall_cons_iff in HO as [H1 H2]. cbn [fold_left].
  apply IH; [|exact H2]. now apply outside_sim.
Qed.
Lemma sessions_follow l : forall F k, (forall p, sim_file (F p) (k p)) -> sessions_covered l F ->
  exists k', run_sessions l k = Ok (ideal_sessions l F, k').
Proof.
  induction l as [|x l IH]; intros F k H HC; [exists k; reflexivity|]. cbn [sessions_covered] in HC. destruct HC as (H1 & H2 & H3 & H4 & H5).
  assert (follows (s_env x) (s_codec x) (s_opens x) (s_types x) (begun F) (fresh_machine (s_types x) (mk_disk k (s_opens x)))) as HF.
  { unfold follows, begun, fresh_machine. cbn [vars files archivers snapshots m_vars m_disk m_writers m_readers m_globals].
    split; [intros i; exists false; reflexivity|]. split; [split; [reflexivity|exact H]|]. split; [|split; [intros r; exact I|constructor]].
    split; [reflexivity|]. intros. discriminate. }
  assert (host_big (s_env x) = false) as EL by apply H1.
  destruct (programs_follow (s_env x) (s_codec x) (s_opens x) (s_types x) (s_program x) H1 H2 _ _ HF ltac:(rewrite EL; exact H3)) as (s' & E & _ & (_ & HF') & _).
  cbn [run_sessions ideal_sessions]. rewrite E. cbn [obind fst snd].
  destruct (IH (left_by x F) (fold_left outside_step (s_after x) (file_at (m_disk s')))) as (k' & ->); [|exact H5|].
  - unfold left_by, ideal_run. now apply outsides_sim.
  - exists k'. reflexivity.
Qed.

(** ** The property *)
Theorem C75_sessions : forall sessions F k,
  (forall p, holds (F p) (k p)) -> sessions_covered sessions F ->
  exists k', run_sessions sessions k = Ok (ideal_sessions sessions F, k').
Proof. intros l F k H HC. apply sessions_follow; [|exact HC]. intros p. now apply holds_sim. Qed.
Print Assumptions C75_sessions.

(** Runs that meet the conditions, and what they must see: a big-endian version-2 NPY file
    and a ZIP archive of another program (one member DEFLATEd); a debug build reads, changes
    and saves, and is killed with an unfinished archive; files are copied, renamed, removed and
    damaged; a release build with other memory reads them again. *)
Definition case_strings : array :=
  mk_array UNICODE_STRING [2; 1] true (fun j => if same_index j [0; 0] then WStr [0x41; 0x1F600] else WStr []).
Definition case_b : zfile :=
  mk_zfile (str "b.npy") 8 (crc32_standard case_file) ([1; 97; 0; 158; 255] ++ case_file) 97 3
    20 2 0x53C68A5B None 0x31E 20 2 0x53C68A5B (Some (mk_zip64 false false true [7; 7; 7])) 0 1 0.
Definition case_npz : bytes :=
  [0; 0; 0] ++ local_record case_b ++ [80; 75] ++ local_record (case_member 142)
  ++ flat_map central_record [case_member 142; case_b] ++ end_record 0 0 2 2 114 294.
Definition case_known : knowledge := fun p =>
  if beq p (str "n.npy") then Some (Holds case_strings)
  else if beq p (str "n.npz") then Some (Members [(str "a.npy", case_strings); (str "b.npy", case_strings)])
  else if beq p (str "notes.txt") then Some Unknown else None.
Definition case_contents : contents := fun p =>
  if beq p (str "n.npy") then Some case_file
  else if beq p (str "n.npz") then Some case_npz
  else if beq p (str "notes.txt") then Some (str "hello") else None.
Definition session_types : typing := fun i => if (i =? 9)%nat then INT8 else UNICODE_STRING.
Definition codec_on (v : env) : codec := mk_codec (npy_deflate v arr_empty arr_empty arr_empty) npy_inflate.
Definition release : env := mk_env false false (2 ^ 33).
Definition case_sessions : list session :=
  [mk_session case_env (codec_on case_env) session_types (fun _ => true)
     [SLoad 0 (str "n.npy"); SList 0; SVar (ASet 0 [1; 0] (WStr [66])); SSave 0 BIG (str "m.npy");
      SNew 0 (case_device (2 ^ 40)) (str "q.npz") DEFLATED LITTLE; SWrite 0 (str "s") 0; SEnd 0;
      SNew 1 (case_device (2 ^ 40)) (str "lost.npz") STORED LITTLE; SWrite 1 (str "s") 0]
     [Renamed (str "m.npy") (str "backup.npy"); Removed (str "lost.npz"); Copied (str "q.npz") (str "r.npz"); Put (str "n.npy") [1; 2] Unknown];
   mk_session release (codec_on release) session_types (fun p => negb (beq p (str "backup.npy")))
     [SLoad 0 (str "m.npy"); SLoad 0 (str "backup.npy"); SList 0; SOpen 0 (str "r.npz"); SRead 1 0 (str "s"); SGet 1 [1; 0];
      SOpen 1 (str "n.npz"); SKeys 1; SRead 2 1 (str "b"); SList 2; SRead 9 1 (str "a"); SSave 2 LITTLE (str "n.npy");
      SSave 2 LITTLE (str "backup.npy"); SPeek (str "n.npy")]
     []].
Lemma case_strings_file : npy_file case_strings case_file.
Proof.
  split; [apply is_byteb_ok; vm_compute; reflexivity|]. exists foreign_entries, [10], true, 3. 
  eexists. exists []. split; [repeat constructor; cbn; unfold blank; repeat constructor; auto; lia|].
  split; [cbn; apply (Permutation_app_comm [FShape [2; 1]] [_; _])|]. split; [lia|]. split; [repeat constructor; vm_compute; congruence|].
  split; [vm_compute; reflexivity|]. split; [vm_compute; reflexivity|].
  split; [repeat constructor; unfold fits; cbn; lia|]. split; [repeat constructor; cbn; lia|]. split; [repeat constructor; unfold at_most, len; cbn; lia|].
  split; [intros [H|H]; discriminate H|]. split; [apply Version_2; vm_compute; reflexivity|]. vm_compute. reflexivity.
Qed.
Example C75_case : (forall p, holds (case_known p) (case_contents p)) /\ sessions_covered case_sessions case_known /\
  ideal_sessions case_sessions case_known =
  [[Done; SawAll [WStr [0x41; 0x1F600]; WStr []]; Done; Done; Done; Done; Done; Done; Done];
   [Caught InvalidArgument; Done; SawAll [WStr [0x41; 0x1F600]; WStr [66]]; Done; Done; Saw (WStr [66]);
    Done; SawKeys [str "a.npy"; str "b.npy"]; Done; SawAll [WStr [0x41; 0x1F600]; WStr []]; Caught RuntimeError; Done;
    Caught InvalidArgument; SawHeader UNICODE_STRING true [2; 1]]].
Proof.
  assert (forall v, host_big v = false -> libnpy_codec v (codec_on v)) as HCod.
  { intros v Hv. split; [exact Hv|]. split; [reflexivity|]. intros b. exists arr_empty, arr_empty, arr_empty. split; [|reflexivity].
    intros i Hi. rewrite arr_get_empty. lia. }
  split; [|split; [|vm_compute; reflexivity]].
  - intros p. unfold case_known, case_contents. destruct (beq p (str "n.npy")); [exact case_strings_file|].
    destruct (beq p (str "n.npz")); [|destruct (beq p (str "notes.txt")); exact I].
    exists [case_member 142; case_b]. split; [split; [split; [reflexivity|split]|]|].
    + repeat constructor; vm_compute; intuition congruence.
    + eexists ([0; 0; 0] ++ local_record case_b ++ [80; 75] ++ local_record (case_member 142)), [], 0, 0, 2, 114.
      split; [vm_compute; reflexivity|]. repeat split; vm_compute; congruence.
    + repeat constructor.
      * eexists ([0; 0; 0] ++ local_record case_b ++ [80; 75]), _. split; [|vm_compute; reflexivity].
        unfold case_npz. rewrite <- !app_assoc. reflexivity.
      * eexists [0; 0; 0], _. split; [|vm_compute; reflexivity]. reflexivity.
    + assert (bytes_ok case_file) as HB by apply case_strings_file.
      constructor; [|constructor; [|constructor]]; (split; [reflexivity|]; split; [vm_compute; reflexivity|]; exists case_file; split; [exact case_strings_file|]; split).
      * left. split; reflexivity.
      * split; [unfold case_member, case_b; cbn [z_crc]; reflexivity|]. split; [vm_compute; reflexivity|]. split; [vm_compute; congruence|]. intros H. vm_compute in H. discriminate H.
      * right. split; [reflexivity|]. split; [|right; vm_compute; congruence]. apply one_stored_block_ok; [exact HB|vm_compute; reflexivity].
      * split; [unfold case_member, case_b; cbn [z_crc]; reflexivity|]. split; [vm_compute; reflexivity|]. split; [vm_compute; congruence|]. intros _ [H _]. vm_compute in H. discriminate H.
  - assert (forall v opens x l w, covered false opens session_types x w ->
      all_covered (mem v) false opens session_types l (snd (ideal (mem v) opens session_types x w)) ->
      all_covered (mem v) false opens session_types (x :: l) w) as HS by (intros v opens x l w H1 H2; exact (conj H1 H2)).
    Ltac is_there := intros z H; vm_compute in H; injection H as <-; eexists; reflexivity.
    Ltac others := split; [intros h y H; vm_compute in H; discriminate H|];
      intros r q items H; apply (f_equal (option_map fst)) in H; destruct r as [|[|r]]; vm_compute in H;
      (discriminate H || (injection H as <-; vm_compute; congruence)).
    unfold case_sessions. cbn [sessions_covered s_env s_codec s_types s_opens s_program s_after].
    split; [now apply HCod|]. split; [vm_compute; congruence|]. split; [|split; [repeat constructor|]].
    + apply (HS case_env); [is_there|].
      apply (HS case_env); [vm_compute; congruence|].
      apply (HS case_env); [split; [repeat constructor; unfold fits; cbn; lia|split; [small|vm_compute; congruence]]|].
      apply (HS case_env); [intros _; split; [nobody|eexists; split; [reflexivity|record]]|].
      apply (HS case_env); [split; [now right|split; [vm_compute; congruence|intros w1 _; nobody]]|].
      apply (HS case_env); [put_member|].
      apply (HS case_env); [vm_compute; congruence|].
      apply (HS case_env); [split; [now left|split; [vm_compute; congruence|intros w1 _; nobody]]|].
      apply (HS case_env); [put_member|]. exact I.
    + split; [now apply HCod|]. split; [vm_compute; congruence|]. split; [|split; [constructor|exact I]].
      apply (HS release); [intros z H; vm_compute in H; discriminate H|].
      apply (HS release); [is_there|].
      apply (HS release); [vm_compute; congruence|].
      apply (HS release); [is_there|].
      apply (HS release); [vm_compute; congruence|].
      apply (HS release); [split; [small|vm_compute; congruence]|].
      apply (HS release); [is_there|].
      apply (HS release); [vm_compute; congruence|].
      apply (HS release); [vm_compute; congruence|].
      apply (HS release); [vm_compute; congruence|].
      apply (HS release); [vm_compute; congruence|].
      apply (HS release); [intros _; split; [others|eexists; split; [reflexivity|record]]|].
      apply (HS release); [intros H; vm_compute in H; discriminate H|].
      apply (HS release); [is_there|]. exact I.
Qed.
