(** Property C73: whole programs. *)
From Coq Require Import String ZArith List Bool Lia.
From Verif Require Import Base Stream BaseFacts Dtype Values Spec ValuesFacts PropValues Header HeaderFacts ParseFacts ParserInv
  NpyFacts Tensor Npy TensorFacts PropTensor SaveFacts PropNpy TensorVars PropVars Views PropViews CutFacts PropCut Files PropFiles
  Crc Npz NpzFacts ArchiveFacts PropNpz PropZip ZipFiles PropDisk Arr Tinfl Tdefl DeflTop PropCompress Program ProgramSpec ProgFacts ProgArch ProgServe.
Import ListNotations.
Open Scope Z_scope.

(** ** The libnpy program follows the ideal one: the invariant *)
Definition sim_vars (ty : typing) (V : nat -> option array) (m : objects) : Prop :=
  forall i, match V i with
            | Some a => is_array (m i) a /\ a_type a = ty i
            | None => hollow (ty i) (m i)
            end.
Definition sim_file (z : option content) (f : option bytes) : Prop :=
  match z with
  | None => f = None
  | Some (Holds a) => exists b, f = Some b /\ forall v, usual v -> npy_serves v b a
  | Some (Members items) => exists b, f = Some b /\ forall v c, usual v -> c_inflate c = npy_inflate -> npz_serves v c b items
  | Some Unknown => True
  end.
Definition sim_files (opens : bytes -> bool) (F : bytes -> option content) (k : disk) : Prop :=
  (forall p, can_write k p = opens p) /\ forall p, sim_file (F p) (file_at k p).
Definition sim_writer (v : env) (c : codec) (F : bytes -> option content) (y : archiver) (fw : file_writer) : Prop :=
  fw_path fw = ar_path y /\ fw_open fw = ar_opens y && negb (ar_closed y) /\
  w_closed (fw_w fw) = ar_closed y /\ w_method (fw_w fw) = ar_method y /\ w_endian (fw_w fw) = ar_endian y /\
  (ar_method y = STORED \/ ar_method y = DEFLATED) /\ 2 ^ 32 <= takes (fw_dev fw) /\
  (if ar_opens y then ar_closed y = false ->
     F (ar_path y) = Some Unknown /\ total (host_big v) (ar_endian y) (ar_items y) < 2 ^ 32 /\ len (ar_items y) <= 65535 /\
     exists ts wi, Forall2 (member v (ar_method y) (ar_endian y)) (ar_items y) ts /\
       PropNpz.write_all v c (new_writer (ar_method y) (ar_endian y)) ts = Ok wi /\ w_shadows (fw_dev fw) (fw_w fw) wi
   else o_ok (w_out (fw_w fw)) = false /\ 22 <= total (host_big v) (ar_endian y) (ar_items y)).
Definition in_use (y : archiver) : Prop := ar_opens y = true /\ ar_closed y = false.
Definition sim_writers (v : env) (c : codec) (F : bytes -> option content) (A : nat -> option archiver)
    (W : nat -> option file_writer) : Prop :=
  (forall h, match A h with
             | None => W h = None
             | Some y => exists fw, W h = Some fw /\ sim_writer v c F y fw
             end) /\
  (forall h1 h2 y1 y2, A h1 = Some y1 -> A h2 = Some y2 -> in_use y1 -> in_use y2 -> h1 <> h2 -> ar_path y1 <> ar_path y2).
Definition sim_readers (v : env) (c : codec) (S : nat -> option (bytes * list (bytes * array))) (R : nat -> option reader) : Prop :=
  forall r, match S r with
            | None => True
            | Some (_, items) => exists rd, R r = Some rd /\ reader_serves v c items rd
            end.
Definition follows (v : env) (c : codec) (opens : bytes -> bool) (ty : typing) (w : world) (s : machine) : Prop :=
  sim_vars ty (vars w) (m_vars s) /\ sim_files opens (files w) (m_disk s) /\
  sim_writers v c (files w) (archivers w) (m_writers s) /\ sim_readers v c (snapshots w) (m_readers s) /\
  prior_parses (m_globals s).

(** What the program gets from the step. *)
Definition reported (o : seen) : outcome seen := match o with Caught e => Throw e | _ => Ok o end.

(** ** Variables *)
Lemma sim_put ty V m i a t : sim_vars ty V m -> is_array t a -> a_type a = ty i ->
  sim_vars ty (fun k => if (k =? i)%nat then Some a else V k) (put m i t).
Proof. intros H HA HT k. unfold put. destruct (Nat.eqb_spec k i) as [->|]; [auto|apply H]. Qed.
Lemma hollow_of ty V m j : sim_vars ty V m -> hollow (ty j) (mk_tensor [] [] (t_fortran (m j)) (t_dtype (m j)) []).
Proof.
  intros H. exists (t_fortran (m j)). f_equal. specialize (H j). destruct (V j); [destruct H as ((_ & -> & _) & ->); reflexivity|].
  destruct H as [f ->]. reflexivity.
Qed.
Lemma var_step v c opens ty a w s : follows v c opens ty w s -> covered (host_big v) opens ty (SVar a) w ->
  exists s', exec v c ty (SVar a) s = (reported (fst (ideal_var (mem v) ty a w)), s') /\
    follows v c opens ty (snd (ideal_var (mem v) ty a w)) s'.
Proof.
  intros (HV & HR) HC.
  assert (forall w' m, files w' = files w -> archivers w' = archivers w -> snapshots w' = snapshots w -> sim_vars ty (vars w') m ->
    follows v c opens ty w' (on_vars s m)) as HK.
  { intros w' m E1 E2 E3 H. unfold follows, on_vars. cbn [m_vars m_disk m_writers m_readers m_globals]. rewrite E1, E2, E3. auto. }
  assert (follows v c opens ty w s) as H0 by (split; assumption).
  destruct a as [i shape f|i j|i j|i j|i j|i index x|i src]; cbn [exec act target ideal_var covered] in *.
  - destruct HC as [Hs HP]. pose proof (array_make v (ty i) shape f Hs HP) as H. destruct (_ >? mem v).
    + rewrite H. cbn [obind fst snd]. exists s. auto.
    + destruct H as (t & -> & HA). cbn [obind fst snd]. eexists. split; [reflexivity|]. apply HK; try reflexivity.
      cbn [set_var vars]. now apply sim_put.
  - cbn [fst snd]. eexists. split; [reflexivity|]. apply HK; try reflexivity. intros k. cbn [set_var vars]. unfold copy_construct, put.
    destruct (Nat.eqb_spec k i) as [->|]; [|apply HV]. rewrite tensor_eta, HC. apply HV.
  - cbn [fst snd]. eexists. split; [reflexivity|]. apply HK; try reflexivity. intros k. cbn [set_var vars]. rewrite move_construct_at.
    destruct (Nat.eqb_spec k i) as [->|]; [rewrite HC; apply HV|]. destruct (Nat.eqb_spec k j) as [->|]; [eapply hollow_of; eassumption|apply HV].
  - cbn [fst snd]. eexists. split; [reflexivity|]. apply HK; try reflexivity. intros k. cbn [set_var vars]. rewrite copy_assign_at.
    destruct (Nat.eqb_spec k i) as [->|]; [|apply HV]. rewrite HC. apply HV.
  - cbn [fst snd]. eexists. split; [reflexivity|]. apply HK; try reflexivity. intros k. cbn [set_var vars]. rewrite move_assign_at.
    destruct (Nat.eqb_spec k j) as [->|]; [eapply hollow_of; eassumption|]. destruct (Nat.eqb_spec k i) as [->|]; [|apply HV]. rewrite HC. apply HV.
  - destruct HC as (Hx & HI & HN). pose proof (HV i) as Hi. destruct (vars w i) as [y|]; [|contradiction]. destruct Hi as [HA HT].
    pose proof (array_set (m_vars s i) y index x HA HI ltac:(now rewrite HT)) as H. destruct (stored y index x) as [y'|].
    + destruct H as (t' & -> & HA' & HT'). cbn [obind fst snd]. eexists. split; [reflexivity|]. apply HK; try reflexivity.
      cbn [set_var vars]. apply sim_put; [exact HV|exact HA'|congruence].
    + rewrite H. cbn [obind fst snd]. exists s. auto.
  - destruct HC as (Hx & HN). pose proof (HV i) as Hi. destruct (vars w i) as [y|]; [|contradiction]. destruct Hi as [HA HT].
    pose proof (array_fill (m_vars s i) y src HA ltac:(now rewrite HT)) as H. destruct (filled y src) as [y'|].
    + destruct H as (t' & -> & HA' & HT'). cbn [obind fst snd]. eexists. split; [reflexivity|]. apply HK; try reflexivity.
      cbn [set_var vars]. apply sim_put; [exact HV|exact HA'|congruence].
    + rewrite H. cbn [obind fst snd]. exists s. auto.
Qed.

(** ** Files and writers *)
Lemma writers_elsewhere v c F F' A W : (forall h y, A h = Some y -> in_use y -> F' (ar_path y) = F (ar_path y)) ->
  sim_writers v c F A W -> sim_writers v c F' A W.
Proof.
  intros HF [H1 H2]. split; [|exact H2]. intros h. specialize (H1 h). destruct (A h) as [y|] eqn:EA; [|exact H1].
  destruct H1 as (fw & HW & K1 & K2 & K3 & K4 & K5 & K6 & K7 & K8). exists fw. split; [exact HW|]. do 7 (split; [assumption|]).
  destruct (ar_opens y) eqn:EO; [|exact K8]. intros EC. specialize (K8 EC). rewrite (HF h y EA) by now split. exact K8.
Qed.
Lemma disk_put_sim opens F k p z b : sim_files opens F k -> sim_file (Some z) (Some b) ->
  sim_files opens (fun q => if beq q p then Some z else F q) (disk_put k p b).
Proof.
  intros [H1 H2] H. split; [exact H1|]. intros q. unfold disk_put. cbn [file_at]. destruct (beq q p); [exact H|apply H2].
Qed.
Lemma disk_put_unfinished opens F k p b : sim_files opens F k -> F p = Some Unknown ->
  sim_files opens F (disk_put k p b).
Proof.
  intros [H1 H2] H. split; [exact H1|]. intros q. unfold disk_put. cbn [file_at]. destruct (beq q p) eqn:E; [|apply H2].
  apply beq_eq in E. subst q. now rewrite H.
Qed.
(** Closing: what is then in the file. *)
Lemma close_sim v c opens w y fw k : libnpy_codec v c -> sim_files opens (files w) k -> sim_writer v c (files w) y fw ->
  sim_files opens (files (finished w y)) (snd (fw_close fw k)) /\ fw_destroy fw k = snd (fw_close fw k) /\
  sim_writer v c (files (finished w y)) (mk_archiver (ar_path y) (ar_opens y) (ar_method y) (ar_endian y) (ar_items y) true) (fst (fw_close fw k)).
Proof.
  intros HC HF (K1 & K2 & K3 & K4 & K5 & K6 & K7 & K8). unfold fw_destroy, fw_close, finished. rewrite K3. destruct (ar_closed y) eqn:EC.
  - rewrite andb_false_r in *. cbn [fst snd]. split; [exact HF|]. split; [reflexivity|]. unfold sim_writer. cbn [ar_path ar_opens ar_closed ar_method ar_endian ar_items].
    cbn [negb]. rewrite andb_false_r. do 7 (split; [assumption|]). destruct (ar_opens y); [discriminate|exact K8].
  - cbn [fst snd negb] in *. rewrite andb_true_r in *. rewrite K2.
    assert (sim_files opens (files (if ar_opens y then set_file w (ar_path y) (Members (ar_items y)) else w))
      (if ar_opens y then disk_put k (fw_path fw) (ztake (takes (fw_dev fw)) (w_str (w_close_on (dwrite (fw_dev fw)) (fw_w fw)))) else k)) as HFiles.
    { destruct (ar_opens y) eqn:EO; [|exact HF]. specialize (K8 eq_refl). destruct K8 as (_ & HT & HN & ts & wi & HM & HW & HS).
      destruct (members_archive v c _ _ _ _ HC K6 HM HT HN) as (w' & HW' & HCl & _ & _ & HOk & HA). rewrite HW in HW'. injection HW' as <-.
      rewrite K1. unfold set_file. cbn [files]. apply disk_put_sim; [exact HF|]. cbn [sim_file]. exists (w_str (w_close wi)).
      split; [|intros v' c' HU' HI'; exact (archive_serves v c v' c' _ _ _ _ _ HC HU' HI' HM HA)]. f_equal. pose proof (shadow_close _ _ _ HS) as (_ & _ & _ & HSh & _). unfold w_str at 1.
      rewrite (shadows_same _ _ _ _ HSh) by lia. fold (w_str (w_close wi)). rewrite ztake_all; [reflexivity|].
      destruct HA as (_ & _ & _ & _ & HL & _). lia. }
    split; [exact HFiles|]. split; [reflexivity|]. unfold sim_writer. cbn [ar_path ar_opens ar_closed ar_method ar_endian ar_items fw_path fw_open fw_w fw_dev negb].
    rewrite andb_false_r. split; [exact K1|]. split; [reflexivity|].
    unfold w_close_on. rewrite K3. cbn [w_closed w_method w_endian w_out]. do 5 (split; [try reflexivity; try assumption|]).
    destruct (ar_opens y); [discriminate|]. destruct K8 as [K8 K9]. split; [|exact K9]. unfold close_archive_on. rewrite !dwrite_stuck; auto. rewrite dwrite_stuck; auto.
Qed.
Lemma finished_elsewhere w h y : forall h' y', archivers w h = Some y -> archivers w h' = Some y' -> in_use y' -> h' <> h ->
  (forall h1 h2 y1 y2, archivers w h1 = Some y1 -> archivers w h2 = Some y2 -> in_use y1 -> in_use y2 -> h1 <> h2 -> ar_path y1 <> ar_path y2) ->
  files (finished w y) (ar_path y') = files w (ar_path y').
Proof.
  intros h' y' E E' HU Hne HD. unfold finished. destruct (ar_opens y && negb (ar_closed y)) eqn:EO; [|reflexivity].
  apply andb_true_iff in EO as [E1 E2]. apply negb_true_iff in E2. cbn [set_file files].
  destruct (beq (ar_path y') (ar_path y)) eqn:EB; [|reflexivity]. apply beq_eq in EB. exfalso.
  eapply (HD h' h y' y); [exact E'|exact E|exact HU|split; assumption|exact Hne|exact EB].
Qed.
Lemma finished_parts w y : vars (finished w y) = vars w /\ archivers (finished w y) = archivers w /\ snapshots (finished w y) = snapshots w.
Proof. unfold finished. destruct (_ && _); auto. Qed.

(** ** One step *)
Lemma untouched v c opens ty w s g : follows v c opens ty w s -> prior_parses g -> follows v c opens ty w (on_globals s g).
Proof. intros (H1 & H2 & H3 & H4 & _) Hg. unfold follows, on_globals. cbn [m_vars m_disk m_writers m_readers m_globals]. auto. Qed.
Lemma set_var_follows v c opens ty w s i a t : follows v c opens ty w s -> is_array t a -> a_type a = ty i ->
  follows v c opens ty (set_var w i (Some a)) (on_vars s (put (m_vars s) i t)).
Proof.
  intros (H1 & H2) HA HT. split; [|exact H2]. cbn [set_var vars on_vars m_vars]. now apply sim_put.
Qed.
Lemma reader_follows v c opens ty w s r rd g p items : follows v c opens ty w s -> prior_parses g ->
  snapshots w r = Some (p, items) -> reader_serves v c items rd ->
  follows v c opens ty w (on_reader s r (Some rd) g).
Proof.
  intros (H1 & H2 & H3 & H4 & _) Hg HS HR. unfold follows, on_reader. cbn [m_vars m_disk m_writers m_readers m_globals].
  do 3 (split; [assumption|]). split; [|exact Hg]. intros k. destruct (Nat.eqb_spec k r) as [->|]; [|apply H4].
  rewrite HS. exists rd. auto.
Qed.
Lemma new_writer_write v c m e n t p : libnpy_codec v c -> m = STORED \/ m = DEFLATED -> member v m e p (n, t) ->
  exists w, w_write v c (new_writer m e) n t = Ok w /\ w_closed w = false /\ w_method w = m /\ w_endian w = e.
Proof.
  intros HC Hm HM. destruct (extent_write v c m e p (n, t) (new_writer m e) HC Hm HM eq_refl eq_refl eq_refl eq_refl) as (w & E & _ & K1 & _ & K3 & K4 & _).
  exists w. auto.
Qed.

Lemma members_total v m e items ts : Forall2 (member v m e) items ts -> 22 <= total (host_big v) e items.
Proof.
  intros HM. induction HM as [|p q l1 l2 Hp HM IH]; cbn [total fold_right]; [lia|]. fold (total (host_big v) e l1).
  destruct Hp as (_ & Hp & _). pose proof (is_array_shape _ _ Hp) as Hs. pose proof (cost_pos (host_big v) e p Hs). lia.
Qed.
Lemma write_sim v c opens w y fw k name t x : libnpy_codec v c -> sim_files opens (files w) k -> sim_writer v c (files w) y fw ->
  ar_closed y = false -> is_array x t -> recordable (host_big v) (ar_endian y) t -> len name <= 65531 ->
  total (host_big v) (ar_endian y) (ar_items y ++ [(name, t)]) < 2 ^ 32 -> len (ar_items y) < 65535 ->
  (ar_method y = DEFLATED -> survives (file_size (host_big v) (ar_endian y) t)) ->
  exists fw' k', fw_write v c fw name x k = (Ok tt, fw', k') /\ sim_files opens (files w) k' /\
    sim_writer v c (files w) (mk_archiver (ar_path y) (ar_opens y) (ar_method y) (ar_endian y) (ar_items y ++ [(name, t)]) false) fw'.
Proof.
  intros HC HFi (K1 & K2 & K3 & K4 & K5 & K6 & K7 & K8) EC HA HRec HN HTot HLen HSv. rewrite EC in *. cbn [negb] in K2. rewrite andb_true_r in K2.
  assert (22 <= total (host_big v) (ar_endian y) (ar_items y)) as H22.
  { destruct (ar_opens y); [|apply K8]. destruct (K8 eq_refl) as (_ & _ & _ & ts & wi & HM & _). eapply members_total; exact HM. }
  assert (member v (ar_method y) (ar_endian y) (name, t) (name, x)) as HMb.
  { rewrite total_app in HTot. pose proof (is_array_shape _ _ HA) as Hs.
    destruct (cost_pos (host_big v) (ar_endian y) (name, t) Hs) as [_ HCost]. cbn [snd] in HCost.
    unfold member. cbn [fst snd]. rewrite (file_size_len v (ar_endian y) x t HA).
    split; [reflexivity|]. split; [exact HA|]. split; [exact HRec|]. split; [exact HN|].
    change (2 ^ 32) with 4294967296 in *. change (2 ^ 30) with 1073741824. split; [lia|]. split; [lia|exact HSv]. }
  unfold fw_write. destruct (ar_opens y) eqn:EO.
  - destruct (K8 eq_refl) as (HU & _ & _ & ts & wi & HM & HW & HS).
    destruct (written v c _ _ _ _ HC K6 HM (new_writer (ar_method y) (ar_endian y)) eq_refl eq_refl eq_refl eq_refl) as (wi0 & HW0 & _ & C1 & C2 & C3 & C4).
    rewrite HW in HW0. injection HW0 as <-.
    destruct (extent_write v c _ _ (name, t) (name, x) wi HC K6 HMb C1 C2 C3 C4) as (wi' & HWi & _ & D1 & D2 & D3 & D4 & _). cbn [fst snd] in HWi.
    pose proof (shadow_write v c (fw_dev fw) (fw_w fw) wi name x HS) as HSh. rewrite HWi in HSh. destruct HSh as (w' & -> & HS').
    rewrite K2, K1. eexists. eexists. split; [reflexivity|]. split; [now apply disk_put_unfinished|].
    unfold sim_writer. cbn [fw_path fw_open fw_w fw_dev ar_path ar_opens ar_closed ar_method ar_endian ar_items negb andb].
    pose proof HS' as (S1 & S2 & S3 & _).
    split; [reflexivity|]. split; [reflexivity|]. split; [congruence|]. split; [congruence|]. split; [congruence|]. split; [exact K6|]. split; [exact K7|].
    intros _. split; [exact HU|]. split; [exact HTot|]. split; [rewrite len_app; change (len [(name, t)]) with 1; lia|].
    exists (ts ++ [(name, x)]), wi'. split; [apply Forall2_app; [exact HM|now constructor]|]. split; [|exact HS'].
    rewrite (write_all_app _ _ _ _ _ _ HW). cbn [PropNpz.write_all]. rewrite HWi. reflexivity.
  - destruct K8 as [K8 _]. destruct (new_writer_write v c _ _ name x (name, t) HC K6 HMb) as (wi' & HWi & D1 & D3 & D4).
    pose proof (dark_write v c (fw_dev fw) (fw_w fw) (new_writer (ar_method y) (ar_endian y)) name x K3 K4 K5 K8) as HD. rewrite HWi in HD.
    destruct HD as (w' & -> & E1 & E2 & E3 & E4). rewrite K2. eexists. eexists. split; [reflexivity|]. split; [exact HFi|].
    unfold sim_writer. cbn [fw_path fw_open fw_w fw_dev ar_path ar_opens ar_closed ar_method ar_endian ar_items negb andb].
    split; [exact K1|]. split; [reflexivity|]. split; [congruence|]. split; [congruence|]. split; [congruence|]. split; [exact K6|]. split; [exact K7|].
    split; [exact E1|]. rewrite total_app. pose proof (is_array_shape _ _ HA) as Hs.
    destruct (cost_pos (host_big v) (ar_endian y) (name, t) Hs). lia.
Qed.

Lemma step_follows v c opens ty x w s : libnpy_codec v c -> 2 ^ 32 <= mem v ->
  follows v c opens ty w s -> covered (host_big v) opens ty x w ->
  exists s', exec v c ty x s = (reported (fst (ideal (mem v) opens ty x w)), s') /\
    follows v c opens ty (snd (ideal (mem v) opens ty x w)) s'.
Proof.
  intros HC HMem HF HCov. assert (usual v) as HUs by (split; [apply HC|exact HMem]). pose proof HF as (HV & HFi & HW & HRd & Hg).
  destruct x as [a|i index|i|i e p|i p|p|h d p m e|h name i|h|h|r p|i r name|r name|r name|r].
  - exact (var_step v c opens ty a w s HF HCov).
  - cbn [exec ideal covered] in *. destruct HCov as [HI HN]. pose proof (HV i) as Hi. destruct (vars w i) as [y|]; [|contradiction]. destruct Hi as [HA HT].
    rewrite (array_get _ _ _ HA HI). exists s. cbn [fst snd]. split; [|exact HF]. now destruct (element y index).
  - cbn [exec ideal covered] in *. pose proof (HV i) as Hi. destruct (vars w i) as [y|]; [|contradiction]. destruct Hi as [HA HT].
    rewrite (array_list _ _ HA). exists s. cbn [fst snd obind]. split; [reflexivity|exact HF].
  - (* save *)
    cbn [exec ideal covered] in *. destruct HFi as [HOp HFi]. unfold save_path. rewrite HOp. destruct (opens p) eqn:EO.
    + destruct (HCov eq_refl) as [[HU _] (y & EY & HRec)]. rewrite EY. pose proof (HV i) as Hi. rewrite EY in Hi. destruct Hi as [HA HT].
      rewrite file_of_save. cbn [obind fst snd]. rewrite ztake_all by lia. eexists. split; [reflexivity|].
      split; [exact HV|]. cbn [set_file files archivers snapshots on_disk_only m_disk m_writers m_readers m_globals].
      split; [|split; [|split; [exact HRd|exact Hg]]].
      * apply disk_put_sim; [split; assumption|]. eexists. split; [reflexivity|]. intros v' HU'. apply file_serves; auto. apply HC.
      * eapply writers_elsewhere; [|exact HW]. intros h z Hz [HU1 HU2]. cbn beta. destruct (beq (ar_path z) p) eqn:EB; [|reflexivity].
        apply beq_eq in EB. exfalso. exact (HU h z Hz HU1 HU2 EB).
    + cbn [fst snd obind]. eexists. split; [reflexivity|]. exact HF.
  - (* load *)
    cbn [exec ideal covered] in *. destruct HFi as [HOp HFi]. pose proof (HFi p) as Hp. unfold load_path. destruct (files w p) as [z|] eqn:EZ.
    + destruct (HCov z eq_refl) as (y & ->). destruct Hp as (b & -> & HSv).
      destruct (HSv v HUs (open_file b) (m_globals s) eq_refl eq_refl Hg) as [HL _]. destruct (HL (ty i)) as (s' & g' & Hg' & E).
      destruct (received (mem v) (ty i) y) as [er|y']; cbn [fst snd].
      * rewrite E. eexists. split; [reflexivity|]. now apply untouched.
      * destruct E as (t & -> & HA & HT). eexists. split; [reflexivity|]. apply untouched; [|exact Hg']. now apply set_var_follows.
    + cbn [sim_file] in Hp. rewrite Hp. cbn [fst snd]. eexists. split; [reflexivity|]. now apply untouched.
  - (* peek *)
    cbn [exec ideal covered] in *. destruct HFi as [HOp HFi]. pose proof (HFi p) as Hp. unfold peek_path. destruct (files w p) as [z|] eqn:EZ.
    + destruct (HCov z eq_refl) as (y & ->). destruct Hp as (b & -> & HSv).
      destruct (HSv v HUs (open_file b) (m_globals s) eq_refl eq_refl Hg) as [_ (h & s' & g' & Hg' & -> & HS)].
      cbn [obind fst snd]. rewrite HS. eexists. split; [reflexivity|]. now apply untouched.
    + cbn [sim_file] in Hp. rewrite Hp. cbn [fst snd obind]. eexists. split; [reflexivity|]. now apply untouched.
  - (* new writer *)
    cbn [exec ideal covered] in *. destruct HCov as (Hm & HT & HCov).
    set (w1 := match archivers w h with Some y => finished w y | None => w end) in *.
    set (k1 := match m_writers s h with Some fw => fw_destroy fw (m_disk s) | None => m_disk s end) in *.
    destruct HW as [HW1 HW2].
    assert (vars w1 = vars w /\ archivers w1 = archivers w /\ snapshots w1 = snapshots w) as (EV & EA & ES).
    { unfold w1. destruct (archivers w h); [apply finished_parts|auto]. }
    assert (sim_files opens (files w1) k1) as HF1.
    { unfold w1, k1. pose proof (HW1 h) as Hh. destruct (archivers w h) as [y|]; [|rewrite Hh; exact HFi].
      destruct Hh as (fw & -> & HSw). destruct (close_sim v c opens w y fw (m_disk s) HC HFi HSw) as (K1 & -> & _). exact K1. }
    assert (forall h' y', archivers w h' = Some y' -> in_use y' -> h' <> h -> files w1 (ar_path y') = files w (ar_path y')) as HEl.
    { intros h' y' E' HU Hne. unfold w1. destruct (archivers w h) as [y|] eqn:EY; [|reflexivity]. eapply finished_elsewhere; eauto. }
    assert (opens p = true -> forall h' y', archivers w h' = Some y' -> in_use y' -> h' <> h -> ar_path y' <> p) as HU.
    { intros EO h' y' E' [U1 U2] Hne. specialize (HCov EO). destruct (archivers w h) as [y|] eqn:EY.
      - destruct HCov as [HCov _]. apply (HCov h' y'); [|exact U1|exact U2]. cbn [set_archiver archivers].
        destruct (finished_parts w y) as (_ & -> & _). destruct (Nat.eqb_spec h' h); [contradiction|exact E'].
      - destruct HCov as [HCov _]. exact (HCov h' y' E' U1 U2). }
    unfold fw_new. assert (can_write k1 p = opens p) as -> by apply HF1. cbn [fst snd]. eexists. split; [reflexivity|].
    assert (vars (set_archiver (if opens p then set_file w1 p Unknown else w1) h (Some (mk_archiver p (opens p) m e [] false))) = vars w) as E1
      by (destruct (opens p); exact EV).
    assert (snapshots (set_archiver (if opens p then set_file w1 p Unknown else w1) h (Some (mk_archiver p (opens p) m e [] false))) = snapshots w) as E2
      by (destruct (opens p); exact ES).
    unfold follows. rewrite E1, E2. unfold on_writer. cbn [m_vars m_disk m_writers m_readers m_globals]. split; [exact HV|].
    set (w2 := if opens p then set_file w1 p Unknown else w1) in *.
    cbn [set_archiver files archivers].
    assert (archivers w2 = archivers w) as EA2 by (unfold w2; destruct (opens p); exact EA).
    split; [|split; [|split; [exact HRd|exact Hg]]].
    + unfold w2. destruct (opens p); [|exact HF1]. cbn [set_file files]. now apply disk_put_sim.
    + rewrite EA2. split.
      * intros h'. destruct (Nat.eqb_spec h' h) as [->|Hne].
        -- eexists. split; [reflexivity|]. unfold sim_writer. cbn [fw_path fw_open fw_dev fw_w ar_path ar_opens ar_closed ar_method ar_endian ar_items new_file_writer w_closed w_method w_endian w_out o_ok negb].
           rewrite andb_true_r. do 5 (split; [reflexivity|]). split; [exact Hm|]. split; [exact HT|]. destruct (opens p) eqn:EO; [|split; [reflexivity|cbn; lia]]. intros _.
           split; [unfold w2; cbn [set_file files]; now rewrite beq_refl|]. split; [cbn; lia|]. split; [cbn; lia|].
           exists [], (new_writer m e). split; [constructor|]. split; [reflexivity|]. unfold w_shadows, shadows, new_writer, new_file_writer.
           cbn [w_closed w_method w_endian w_out o_ok w_entries]. repeat split; auto.
        -- pose proof (HW1 h') as Hh. destruct (archivers w h') as [y'|] eqn:EY; [|exact Hh]. destruct Hh as (fw & Ew & K1 & K2 & K3 & K4 & K5 & K6 & K7 & K8).
           exists fw. split; [exact Ew|]. do 7 (split; [assumption|]). destruct (ar_opens y') eqn:EO'; [|exact K8]. intros EC. specialize (K8 EC).
           assert (files w2 (ar_path y') = files w (ar_path y')) as ->; [|exact K8].
           unfold w2. destruct (opens p) eqn:EO; [|apply (HEl h'); auto; now split]. cbn [set_file files].
           destruct (beq (ar_path y') p) eqn:EB; [|apply (HEl h'); auto; now split]. apply beq_eq in EB. exfalso.
           exact (HU eq_refl h' y' EY (conj EO' EC) Hne EB).
      * intros h1 h2 y1 y2 A1 A2 U1 U2 Hne. destruct (Nat.eqb_spec h1 h) as [->|N1], (Nat.eqb_spec h2 h) as [->|N2]; [contradiction|..].
        -- injection A1 as <-. destruct U1 as [U1 _]. cbn [ar_opens] in U1. cbn [ar_path]. intros E. exact (HU U1 h2 y2 A2 U2 N2 (eq_sym E)).
        -- injection A2 as <-. destruct U2 as [U2 _]. cbn [ar_opens] in U2. cbn [ar_path]. exact (HU U2 h1 y1 A1 U1 N1).
        -- exact (HW2 h1 h2 y1 y2 A1 A2 U1 U2 Hne).
  - (* write *)
    cbn [exec ideal covered] in *. destruct HCov as (y & EY & HCov). rewrite EY. destruct HW as [HW1 HW2].
    pose proof (HW1 h) as Hh. rewrite EY in Hh. destruct Hh as (fw & Ew & HSw). rewrite Ew.
    destruct (ar_closed y) eqn:EC.
    { (* closed *)
      unfold fw_write, w_write_on. destruct HSw as (K1 & K2 & K3 & KR). rewrite K3, EC. cbn [obind fst snd]. eexists. split; [reflexivity|].
      unfold follows, on_writer. cbn [m_vars m_disk m_writers m_readers m_globals]. split; [exact HV|]. split; [exact HFi|].
      split; [|split; [exact HRd|exact Hg]]. split; [|exact HW2]. intros h'. destruct (Nat.eqb_spec h' h) as [->|Hne]; [|apply HW1].
      rewrite EY. exists fw. split; [reflexivity|]. unfold sim_writer. rewrite EC in *. auto. }
    destruct (HCov eq_refl) as (t & ET & HRec & HN & HTot & HLen & HSv). rewrite ET. clear HCov.
    pose proof (HV i) as Hi. rewrite ET in Hi. destruct Hi as [HA HT].
    destruct (write_sim v c opens w y fw (m_disk s) name t (m_vars s i) HC HFi HSw EC HA HRec HN HTot HLen HSv) as (fw' & k' & -> & K1 & K3).
    cbn [obind fst snd]. eexists. split; [reflexivity|]. unfold follows, on_writer. cbn [set_archiver vars files archivers snapshots m_vars m_disk m_writers m_readers m_globals].
    split; [exact HV|]. split; [exact K1|]. split; [|split; [exact HRd|exact Hg]]. split.
    + intros h'. destruct (Nat.eqb_spec h' h) as [->|Hne]; [exists fw'; split; [reflexivity|exact K3]|apply HW1].
    + assert (forall h1 y1, h1 = h -> (if (h1 =? h)%nat then Some (mk_archiver (ar_path y) (ar_opens y) (ar_method y) (ar_endian y) (ar_items y ++ [(name, t)]) false) else archivers w h1) = Some y1 ->
        in_use y1 -> in_use y /\ ar_path y1 = ar_path y) as HP.
      { intros h1 y1 -> E [U1 U2]. rewrite Nat.eqb_refl in E. injection E as <-. cbn [ar_opens ar_path] in *. split; [split; assumption|reflexivity]. }
      intros h1 h2 y1 y2 A1 A2 U1 U2 Hne. destruct (Nat.eq_dec h1 h) as [E1|N1], (Nat.eq_dec h2 h) as [E2|N2]; [congruence|..].
      * destruct (HP h1 y1 E1 A1 U1) as [V1 ->]. apply Nat.eqb_neq in N2 as N2'. rewrite N2' in A2. apply (HW2 h h2 y y2 EY A2 V1 U2). congruence.
      * destruct (HP h2 y2 E2 A2 U2) as [V2 ->]. apply Nat.eqb_neq in N1 as N1'. rewrite N1' in A1. exact (HW2 h1 h y1 y A1 EY U1 V2 N1).
      * apply Nat.eqb_neq in N1, N2. rewrite N1 in A1. rewrite N2 in A2. exact (HW2 h1 h2 y1 y2 A1 A2 U1 U2 Hne).
  - (* close *)
    cbn [exec ideal covered] in *. destruct (archivers w h) as [y|] eqn:EY; [|contradiction]. destruct HW as [HW1 HW2].
    pose proof (HW1 h) as Hh. rewrite EY in Hh. destruct Hh as (fw & -> & HSw).
    destruct (close_sim v c opens w y fw (m_disk s) HC HFi HSw) as (K1 & _ & K3). destruct (fw_close fw (m_disk s)) as [fw' k']. cbn [fst snd] in *.
    destruct (finished_parts w y) as (EV & EA & ES). eexists. split; [reflexivity|]. unfold follows, on_writer. cbn [set_archiver vars files archivers snapshots m_vars m_disk m_writers m_readers m_globals].
    rewrite EV, ES, EA. split; [exact HV|]. split; [exact K1|]. split; [|split; [exact HRd|exact Hg]]. split.
    + intros h'. destruct (Nat.eqb_spec h' h) as [->|Hne]; [exists fw'; split; [reflexivity|exact K3]|].
      pose proof (HW1 h') as Hh. destruct (archivers w h') as [y'|] eqn:EY'; [|exact Hh]. destruct Hh as (fw2 & Ew & L1 & L2 & L3 & L4 & L5 & L6 & L7 & L8).
      exists fw2. split; [exact Ew|]. do 7 (split; [assumption|]). destruct (ar_opens y') eqn:EO'; [|exact L8]. intros EC. specialize (L8 EC).
      rewrite (finished_elsewhere w h y h' y' EY EY' (conj EO' EC) Hne HW2). exact L8.
    + intros h1 h2 y1 y2 A1 A2 U1 U2 Hne. destruct (Nat.eqb_spec h1 h) as [->|N1]; [injection A1 as <-; destruct U1 as [_ U1]; discriminate|].
      destruct (Nat.eqb_spec h2 h) as [->|N2]; [injection A2 as <-; destruct U2 as [_ U2]; discriminate|]. exact (HW2 h1 h2 y1 y2 A1 A2 U1 U2 Hne).
  - (* destructor *)
    cbn [exec ideal covered] in *. destruct (archivers w h) as [y|] eqn:EY; [|contradiction]. destruct HW as [HW1 HW2].
    pose proof (HW1 h) as Hh. rewrite EY in Hh. destruct Hh as (fw & -> & HSw).
    destruct (close_sim v c opens w y fw (m_disk s) HC HFi HSw) as (K1 & -> & _).
    destruct (finished_parts w y) as (EV & EA & ES). cbn [fst snd]. eexists. split; [reflexivity|]. unfold follows, on_writer. cbn [set_archiver vars files archivers snapshots m_vars m_disk m_writers m_readers m_globals].
    rewrite EV, ES, EA. split; [exact HV|]. split; [exact K1|]. split; [|split; [exact HRd|exact Hg]]. split.
    + intros h'. destruct (Nat.eqb_spec h' h) as [->|Hne]; [reflexivity|].
      pose proof (HW1 h') as Hh. destruct (archivers w h') as [y'|] eqn:EY'; [|exact Hh]. destruct Hh as (fw2 & Ew & L1 & L2 & L3 & L4 & L5 & L6 & L7 & L8).
      exists fw2. split; [exact Ew|]. do 7 (split; [assumption|]). destruct (ar_opens y') eqn:EO'; [|exact L8]. intros EC. specialize (L8 EC).
      rewrite (finished_elsewhere w h y h' y' EY EY' (conj EO' EC) Hne HW2). exact L8.
    + intros h1 h2 y1 y2 A1 A2 U1 U2 Hne. destruct (Nat.eqb_spec h1 h) as [->|N1]; [discriminate|].
      destruct (Nat.eqb_spec h2 h) as [->|N2]; [discriminate|]. exact (HW2 h1 h2 y1 y2 A1 A2 U1 U2 Hne).
  - (* open *)
    cbn [exec ideal covered] in *. destruct HFi as [HOp HFi]. pose proof (HFi p) as Hp. unfold fr_open. destruct (files w p) as [z|] eqn:EZ.
    + destruct (HCov z eq_refl) as (items & ->). destruct Hp as (b & -> & HSv).
      destruct (HSv v c HUs ltac:(apply HC)) as (r0 & HR0 & HSr). rewrite HR0. cbn [fst snd]. eexists. split; [reflexivity|].
      unfold follows, on_reader. cbn [set_snapshot vars files archivers snapshots m_vars m_disk m_writers m_readers m_globals].
      split; [exact HV|]. split; [split; assumption|]. split; [exact HW|]. split; [|exact Hg]. intros k. destruct (Nat.eqb_spec k r) as [->|]; [|apply HRd].
      exists r0. split; [reflexivity|exact HSr].
    + cbn [sim_file] in Hp. rewrite Hp. cbn [new_file_reader fst snd]. eexists. split; [reflexivity|].
      unfold follows, on_reader. cbn [set_snapshot vars files archivers snapshots m_vars m_disk m_writers m_readers m_globals].
      split; [exact HV|]. split; [split; assumption|]. split; [exact HW|]. split; [|exact Hg]. intros k. destruct (Nat.eqb_spec k r) as [->|]; [exact I|apply HRd].
  - (* read *)
    cbn [exec ideal covered] in *. pose proof (HRd r) as Hr. destruct (snapshots w r) as [[p items]|] eqn:ES; [|contradiction].
    destruct Hr as (rd & -> & keeps & HKp & HSv). destruct (HSv rd HKp) as (HRead & _).
    destruct (HRead (ty i) name (m_globals s) Hg) as (rd' & g' & Hg' & HKp' & H).
    pose proof (reader_follows v c opens ty w s r rd' g' p items HF Hg' ES (ex_intro _ keeps (conj HKp' HSv))) as HF'.
    destruct (resolve items name) as [y|].
    + destruct (received (mem v) (ty i) y) as [er|y'].
      * rewrite H. cbn [fst snd]. eexists. split; [reflexivity|exact HF'].
      * destruct H as (t & -> & HAr & HT). cbn [fst snd]. eexists. split; [reflexivity|]. exact (set_var_follows v c opens ty w _ i y' t HF' HAr HT).
    + rewrite H. cbn [fst snd]. eexists. split; [reflexivity|exact HF'].
  - (* look *)
    cbn [exec ideal covered] in *. pose proof (HRd r) as Hr. destruct (snapshots w r) as [[p items]|] eqn:ES; [|contradiction].
    destruct Hr as (rd & -> & keeps & HKp & HSv). destruct (HSv rd HKp) as (_ & HLook & _).
    destruct (HLook name (m_globals s) Hg) as (rd' & g' & Hg' & HKp' & H).
    pose proof (reader_follows v c opens ty w s r rd' g' p items HF Hg' ES (ex_intro _ keeps (conj HKp' HSv))) as HF'.
    destruct (resolve items name) as [y|].
    + destruct H as (hd & -> & HS). cbn [fst snd obind]. rewrite HS. eexists. split; [reflexivity|exact HF'].
    + rewrite H. cbn [fst snd obind]. eexists. split; [reflexivity|exact HF'].
  - cbn [exec ideal covered] in *. pose proof (HRd r) as Hr. destruct (snapshots w r) as [[p items]|] eqn:ES; [|contradiction].
    destruct Hr as (rd & -> & keeps & HKp & HSv). destruct (HSv rd HKp) as (_ & _ & HHas & _). rewrite HHas.
    exists s. split; [reflexivity|exact HF].
  - cbn [exec ideal covered] in *. pose proof (HRd r) as Hr. destruct (snapshots w r) as [[p items]|] eqn:ES; [|contradiction].
    destruct Hr as (rd & -> & keeps & HKp & HSv). destruct (HSv rd HKp) as (_ & _ & _ & HKs). rewrite HKs.
    exists s. split; [reflexivity|exact HF].
Qed.

(** ** The property *)
(** At the start the disk holds any files. *)
Definition fresh_world (k : disk) : world :=
  mk_world (fun _ => None) (fun p => match file_at k p with Some _ => Some Unknown | None => None end) (fun _ => None) (fun _ => None).

Lemma programs_follow v c opens ty program : libnpy_codec v c -> 2 ^ 32 <= mem v -> forall w s,
  follows v c opens ty w s -> all_covered (mem v) (host_big v) opens ty program w ->
  exists s', execute v c ty program s = Ok (fst (ideally (mem v) opens ty program w), s') /\
    follows v c opens ty (snd (ideally (mem v) opens ty program w)) s'.
Proof.
  intros HC HM. induction program as [|x l IH]; intros w s HF HA.
  - exists s. auto.
  - cbn [all_covered] in HA. destruct HA as [H1 H2]. destruct (step_follows v c opens ty x w s HC HM HF H1) as (s1 & E & HF1).
    cbn [execute ideally]. rewrite E. destruct (ideal (mem v) opens ty x w) as [o w1]. cbn [fst snd] in *.
    destruct (IH w1 s1 HF1 H2) as (s' & E' & HF'). destruct (ideally (mem v) opens ty l w1) as [os w2]. cbn [fst snd] in *.
    exists s'. split; [|exact HF']. destruct o; cbn [reported]; rewrite E'; reflexivity.
Qed.
Theorem C73_programs : forall v c ty k program,
  libnpy_codec v c -> 2 ^ 32 <= mem v ->
  all_covered (mem v) (host_big v) (can_write k) ty program (fresh_world k) ->
  exists s, execute v c ty program (fresh_machine ty k) = Ok (fst (ideally (mem v) (can_write k) ty program (fresh_world k)), s).
Proof.
  intros v c ty k program HC HM HA.
  assert (follows v c (can_write k) ty (fresh_world k) (fresh_machine ty k)) as HF.
  { unfold follows, fresh_world, fresh_machine. cbn [vars files archivers snapshots m_vars m_disk m_writers m_readers m_globals].
    split; [intros i; exists false; reflexivity|]. split; [|split; [|split; [intros r; exact I|constructor]]].
    - split; [reflexivity|]. intros p. destruct (file_at k p); [exact I|reflexivity].
    - split; [reflexivity|]. intros. discriminate. }
  destruct (programs_follow v c (can_write k) ty program HC HM _ _ HF HA) as (s & E & _). exists s. exact E.
Qed.

(** A program that meets the conditions, and what it must see. *)
Definition case_types : typing := fun i => if (i =? 9)%nat then BOOL else INT16.
Definition case_program : list step :=
  [SVar (AMake 0 [2; 3] true);
   SVar (AFill 0 (map Scalar [1; 2; 3; 4; 5; 65535]));
   SSave 0 BIG (str "a.npy");
   SVar (ACopyMake 1 0);
   SVar (ASet 1 [-1; 0] (Scalar 40));
   SNew 0 (case_device (2 ^ 40)) (str "b.npz") DEFLATED LITTLE;
   SWrite 0 (str "y.npy") 0;
   SWrite 0 (str "x") 1;
   SNew 1 (case_device (2 ^ 40)) (str "locked.npz") STORED BIG;
   SWrite 1 (str "lost") 1;
   SEnd 0;
   SClose 1;
   SWrite 1 (str "late") 1;
   SVar (AMove 0 1);
   SLoad 2 (str "a.npy");
   SGet 2 [1; 2];
   SGet 2 [2; 0];
   SPeek (str "a.npy");
   SOpen 0 (str "b.npz");
   SKeys 0;
   SHas 0 (str "x");
   SRead 3 0 (str "x");
   SList 3;
   SRead 9 0 (str "y");
   SLook 0 (str "z");
   SLoad 3 (str "locked.npz")].
Example C73_case :
  let k := case_disk in
  libnpy_codec case_env (mk_codec (npy_deflate case_env arr_empty arr_empty arr_empty) npy_inflate) /\
  all_covered (mem case_env) (host_big case_env) (can_write k) case_types case_program (fresh_world k) /\
  fst (ideally (mem case_env) (can_write k) case_types case_program (fresh_world k)) =
  [Done; Done; Done; Done; Done; Done; Done; Done; Done; Done; Done; Done; Caught RuntimeError; Done; Done;
   Saw (Scalar 65535); Caught InvalidArgument; SawHeader INT16 true [2; 3]; Done; SawKeys [str "x.npy"; str "y.npy"]; SawBool false; Done;
   SawAll (map Scalar [1; 40; 3; 4; 5; 65535]); Caught RuntimeError; Caught InvalidArgument; Caught InvalidArgument].
Proof.
  intros k. split.
  { split; [reflexivity|]. split; [reflexivity|]. intros b. exists arr_empty, arr_empty, arr_empty. split; [|reflexivity].
    intros i Hi. rewrite arr_get_empty. lia. } split; [|vm_compute; reflexivity].
  assert (forall x l w, covered (host_big case_env) (can_write k) case_types x w ->
    all_covered (mem case_env) (host_big case_env) (can_write k) case_types l (snd (ideal (mem case_env) (can_write k) case_types x w)) ->
    all_covered (mem case_env) (host_big case_env) (can_write k) case_types (x :: l) w) as HS by (intros x l w H1 H2; exact (conj H1 H2)).
  Ltac small := repeat constructor; (vm_compute; congruence).
  Ltac nobody := split; [intros h y H; destruct h as [|[|h]]; vm_compute in H; try discriminate H; injection H as <-; vm_compute; congruence
                        |intros r q items H; vm_compute in H; discriminate H].
  Ltac record := split; [vm_compute; congruence|]; split; [vm_compute; congruence|small].
  Ltac put_member := eexists; split; [vm_compute; reflexivity|]; intros _; eexists; split; [vm_compute; reflexivity|];
    split; [record|]; split; [vm_compute; congruence|]; split; [vm_compute; reflexivity|]; split; [vm_compute; reflexivity|];
    intros _; left; vm_compute; congruence.
  unfold case_program.
  apply HS; [split; [small|vm_compute; reflexivity]|].
  apply HS; [split; [small|vm_compute; congruence]|].
  apply HS; [intros _; split; [nobody|eexists; split; [vm_compute; reflexivity|record]]|].
  apply HS; [reflexivity|].
  apply HS; [split; [small|split; [small|vm_compute; congruence]]|].
  apply HS; [split; [now right|split; [vm_compute; congruence|intros w1 _; nobody]]|].
  apply HS; [put_member|].
  apply HS; [put_member|].
  apply HS; [split; [now left|split; [vm_compute; congruence|intros w1 H; vm_compute in H; discriminate H]]|].
  apply HS; [put_member|].
  apply HS; [vm_compute; congruence|].
  apply HS; [vm_compute; congruence|].
  apply HS; [eexists; split; [vm_compute; reflexivity|intros H; vm_compute in H; discriminate H]|].
  apply HS; [reflexivity|].
  apply HS; [intros z H; vm_compute in H; injection H as <-; eexists; reflexivity|].
  apply HS; [split; [small|vm_compute; congruence]|].
  apply HS; [split; [small|vm_compute; congruence]|].
  apply HS; [intros z H; vm_compute in H; injection H as <-; eexists; reflexivity|].
  apply HS; [intros z H; vm_compute in H; injection H as <-; eexists; reflexivity|].
  apply HS; [vm_compute; congruence|].
  apply HS; [vm_compute; congruence|].
  apply HS; [vm_compute; congruence|].
  apply HS; [vm_compute; congruence|].
  apply HS; [vm_compute; congruence|].
  apply HS; [vm_compute; congruence|].
  apply HS; [intros z H; vm_compute in H; discriminate H|].
  exact I.
Qed.
Print Assumptions C73_programs.
