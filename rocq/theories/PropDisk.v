(** C63: archives in files. *)
From Coq Require Import String ZArith List Bool Lia.
From Verif Require Import Base Stream BaseFacts Dtype Values Spec Header ParserInv Tensor Npy SaveFacts PropNpy CutFacts
  TensorFacts PropTensor Crc Npz NpzFacts ArchiveFacts PropNpz PropZip PropAny Files PropFiles ZipFiles.
Import ListNotations.
Open Scope Z_scope.

(** ** A stream on a device, beside one that takes everything *)
Definition shadows (d : device) (o oi : ostream) : Prop :=
  o_ok oi = true /\
  (o = oi \/ (o_ok o = false /\ takes d < len (o_bytes o) /\ exists t, o_bytes oi = o_bytes o ++ t)).
Lemma shadows_write d o oi b bi : shadows d o oi -> (o = oi -> b = bi) ->
  shadows d (dwrite d o b) (owrite oi bi).
Proof.
  intros [Hi H] Hb. unfold dwrite, owrite. rewrite Hi. split; [reflexivity|]. destruct H as [->|(Ho & HL & t & Ht)].
  - rewrite Hi, (Hb eq_refl). destruct (takes d <? len (o_bytes oi ++ bi)) eqn:E; cbn [andb negb]; [|now left].
    destruct (noticed d _); [|now left]. right. cbn [negb o_ok o_bytes]. split; [reflexivity|]. split; [lia|].
    exists []. now rewrite app_nil_r.
  - right. rewrite Ho. cbn [o_bytes]. split; [exact Ho|]. split; [exact HL|]. exists (t ++ bi). now rewrite Ht, app_assoc.
Qed.
Lemma shadows_same d o oi n : shadows d o oi -> n <= takes d -> ztake n (o_bytes o) = ztake n (o_bytes oi).
Proof.
  intros [_ [->|(_ & HL & t & Ht)]] Hn; [reflexivity|]. rewrite Ht, ztake_app_le by lia. reflexivity.
Qed.
Definition w_shadows (d : device) (w wi : writer) : Prop :=
  w_closed w = w_closed wi /\ w_method w = w_method wi /\ w_endian w = w_endian wi /\
  shadows d (w_out w) (w_out wi) /\ (w_out w = w_out wi -> w_entries w = w_entries wi).
Lemma dwrite_stuck d o b : o_ok o = false -> dwrite d o b = o.
Proof. unfold dwrite. now intros ->. Qed.
(** Once apart, streams stay apart. *)
Lemma apart d o oi b bi : shadows d o oi -> dwrite d o b = owrite oi bi -> o = oi.
Proof.
  intros [Hi [->|(Ho & _)]] E; [reflexivity|]. unfold dwrite, owrite in E. rewrite Ho, Hi in E. subst o. discriminate.
Qed.
Lemma shadow_write v c d w wi n t : w_shadows d w wi ->
  match w_write v c wi n t with
  | Ok wi' => exists w', w_write_on (dwrite d) v c w n t = Ok w' /\ w_shadows d w' wi'
  | Throw x => w_write_on (dwrite d) v c w n t = Throw x
  | AssertFail => w_write_on (dwrite d) v c w n t = AssertFail
  | Undef u => w_write_on (dwrite d) v c w n t = Undef u
  end.
Proof.
  intros (HC & HM & HE & HO & HN). unfold w_write, w_write_on. rewrite HC, HE.
  destruct (w_closed wi) eqn:EC; [reflexivity|].
  destruct (save v t (w_endian wi)) as [b|x| |u]; try reflexivity. cbn [obind].
  unfold w_write_file_on. rewrite HC, EC. unfold write_file_on. rewrite HM.
  match goal with |- context [@obind bytes _ ?x _] => destruct x as [cb|?| |?]; try reflexivity end.
  cbn [obind fst snd]. eexists. split; [reflexivity|].
  assert (forall z, w_out w = w_out wi -> mk_entry (archive_name n) (npy_crc32 b) z (u32 (len b)) (u16 (w_method wi)) (u32 (otellp (w_out w)))
    = mk_entry (archive_name n) (npy_crc32 b) z (u32 (len b)) (u16 (w_method wi)) (u32 (otellp (w_out wi)))) as HX by (intros z ->; reflexivity).
  split; [reflexivity|]. split; [reflexivity|]. split; [exact HE|]. cbn [w_out w_entries]. split.
  - apply shadows_write; [apply shadows_write; [exact HO|]|].
    + intros H. now rewrite HX.
    + reflexivity.
  - intros H. apply apart in H; [|apply shadows_write; [exact HO|intros E; now rewrite HX]].
    apply apart in H; [|exact HO]. now rewrite HN, HX.
Qed.
Lemma shadow_close d w wi : w_shadows d w wi -> w_shadows d (w_close_on (dwrite d) w) (w_close wi).
Proof.
  intros (HC & HM & HE & HO & HN). unfold w_close, w_close_on. rewrite HC. destruct (w_closed wi) eqn:EC.
  { repeat split; auto; try congruence; apply HO. }
  split; [reflexivity|]. split; [exact HM|]. split; [exact HE|]. cbn [w_out w_entries].
  assert (shadows d (dwrite d (w_out w) (flat_map write_cd_header (w_entries w)))
    (owrite (w_out wi) (flat_map write_cd_header (w_entries wi)))) as H1.
  { apply shadows_write; [exact HO|]. intros E. now rewrite HN. }
  unfold close_archive_on. split.
  - apply shadows_write; [exact H1|]. intros E. rewrite E. apply apart in E; [|exact HO]. rewrite E, HN by exact E. reflexivity.
  - intros E. apply apart in E; [|exact H1]. apply apart in E; [|exact HO]. auto.
Qed.

(** ** Programs *)
(** What writer [h] is asked to do in [l] ... *)
Fixpoint ops_of (h : Z) (l : list zip_step) : list op :=
  match l with
  | [] => []
  | ZWrite i n t :: l' => if i =? h then Write n t :: ops_of h l' else ops_of h l'
  | ZClose i :: l' => if i =? h then Close :: ops_of h l' else ops_of h l'
  | _ :: l' => ops_of h l'
  end.
(** ... and what those calls return. *)
Fixpoint answers (h : Z) (l : list zip_step) (os : list (outcome unit)) : list (outcome unit) :=
  match l, os with
  | ZWrite i _ _ :: l', o :: os' => if i =? h then o :: answers h l' os' else answers h l' os'
  | ZClose i :: l', o :: os' => if i =? h then o :: answers h l' os' else answers h l' os'
  | _ :: l', _ :: os' => answers h l' os'
  | _, _ => []
  end.
(** A step that does not open path [p] for writing. *)
Definition spares (p : bytes) (x : zip_step) : Prop :=
  match x with
  | ZNew _ _ q _ _ => q <> p
  | ZFile (FSave _ _ _ q) => q <> p
  | _ => True
  end.
(** A step that leaves the object [h] alive and the same. *)
Definition keeps (h : Z) (x : zip_step) : Prop :=
  match x with
  | ZNew i _ _ _ _ => i <> h
  | ZDestroy i => i <> h
  | _ => True
  end.
(** No writer but [h] has [p] open. *)
Definition no_other (h : Z) (p : bytes) (s : world) : Prop :=
  forall i w, i <> h -> writers s i = Some w -> fw_open w = true -> fw_path w <> p.

Lemma put_other k p b q : q <> p -> file_at (disk_put k q b) p = file_at k p.
Proof.
  intros H. unfold disk_put. cbn [file_at]. destruct (beq p q) eqn:E; [|reflexivity]. apply beq_eq in E. congruence.
Qed.
Lemma put_same k p b : file_at (disk_put k p b) p = Some b.
Proof. unfold disk_put. cbn [file_at]. now rewrite beq_refl. Qed.
(** What steps of a writer on another path (or on no file) do to [p]: nothing. *)
Definition unmoved (p : bytes) (k k' : disk) : Prop := can_write k' = can_write k /\ file_at k' p = file_at k p.
Lemma unmoved_refl p k : unmoved p k k. Proof. split; reflexivity. Qed.
Lemma unmoved_trans p k1 k2 k3 : unmoved p k1 k2 -> unmoved p k2 k3 -> unmoved p k1 k3.
Proof. intros [A B] [C D]. split; congruence. Qed.
Lemma unmoved_put p q k b (o : bool) : (o = true -> q <> p) -> unmoved p k (if o then disk_put k q b else k).
Proof.
  intros H. destruct o; [|apply unmoved_refl]. split; [reflexivity|]. apply put_other. auto.
Qed.
Lemma write_unmoved v c w n t k p : (fw_open w = true -> fw_path w <> p) ->
  unmoved p k (snd (fw_write v c w n t k)) /\ fw_path (snd (fst (fw_write v c w n t k))) = fw_path w /\
  fw_open (snd (fst (fw_write v c w n t k))) = fw_open w.
Proof.
  intros H. unfold fw_write. destruct (w_write_on _ v c (fw_w w) n t); cbn [fst snd]; auto using unmoved_refl.
  split; [apply unmoved_put; exact H|]. split; reflexivity.
Qed.
Lemma close_unmoved w k p : (fw_open w = true -> fw_path w <> p) ->
  unmoved p k (snd (fw_close w k)) /\ (fw_open (fst (fw_close w k)) = true -> fw_path (fst (fw_close w k)) <> p).
Proof.
  intros H. unfold fw_close. destruct (w_closed (fw_w w)); cbn [fst snd]; [auto using unmoved_refl|].
  split; [apply unmoved_put; exact H|]. discriminate.
Qed.
Lemma destroy_unmoved w k p : (fw_open w = true -> fw_path w <> p) -> unmoved p k (fw_destroy w k).
Proof.
  intros H. unfold fw_destroy. destruct (w_closed (fw_w w)); [apply unmoved_refl|]. now apply close_unmoved.
Qed.
Lemma file_step_unmoved x k g p : (match x with FSave _ _ _ q => q <> p | _ => True end) ->
  unmoved p k (fst (file_run1 x (k, g))).
Proof.
  intros H. destruct x as [v t e q|v d q|v q]; cbn [file_run1 fst]; try apply unmoved_refl.
  unfold save_path. destruct (can_write k q) eqn:E; [|apply unmoved_refl].
  destruct (save v t e); cbn [snd]; split; try reflexivity; now apply put_other.
Qed.
(** A step that neither touches [h] nor opens [p]. *)
Lemma other_step v c x s h p : spares p x -> keeps h x -> no_other h p s -> ops_of h [x] = [] ->
  let s' := snd (zip_run1 v c x s) in
  unmoved p (disk_of s) (disk_of s') /\ writers s' h = writers s h /\ no_other h p s'.
Proof.
  intros HP HK HN HO. unfold zip_run1.
  assert (forall i k w', i <> h -> unmoved p (disk_of s) k -> (forall w, w' = Some w -> fw_open w = true -> fw_path w <> p) ->
    let s' := set_writer s i w' k in
    unmoved p (disk_of s) (disk_of s') /\ writers s' h = writers s h /\ no_other h p s') as HS.
  { intros i k w' Hi Hk Hw. cbv zeta. split; [exact Hk|]. split.
    - cbn [set_writer writers]. destruct (h =? i) eqn:E; [lia|reflexivity].
    - intros j w Hj. cbn [set_writer writers]. destruct (j =? i) eqn:E; [|now apply HN]. intros Hw'. now apply Hw. }
  assert (let s' := s in unmoved p (disk_of s) (disk_of s') /\ writers s' h = writers s h /\ no_other h p s') as H0
    by (split; [apply unmoved_refl|]; auto).
  destruct x as [i d q m e|i n t|i|i|d q n|y]; cbn [spares keeps ops_of] in *.
  - destruct (fw_new d q m e _) as [w k'] eqn:E. unfold fw_new in E. injection E as <- <-. cbn [snd]. apply HS; [exact HK| |].
    + eapply unmoved_trans; [|apply unmoved_put; intros _; exact HP].
      destruct (writers s i) as [w|] eqn:E; [|apply unmoved_refl]. apply destroy_unmoved. now apply (HN i).
    + intros w [= <-] _. exact HP.
  - destruct (writers s i) as [w|] eqn:E; [|exact H0]. destruct (i =? h) eqn:Ei; [discriminate|].
    assert (i <> h) as Hi by lia. pose proof (write_unmoved v c w n t (disk_of s) p (HN i w Hi E)) as (H1 & H2 & H3).
    destruct (fw_write v c w n t (disk_of s)) as [[o w'] k]. cbn [fst snd] in *. apply HS; [exact Hi|exact H1|].
    intros w0 [= <-] HW. rewrite H2. apply (HN i w Hi E). congruence.
  - destruct (writers s i) as [w|] eqn:E; [|exact H0]. destruct (i =? h) eqn:Ei; [discriminate|].
    assert (i <> h) as Hi by lia. pose proof (close_unmoved w (disk_of s) p (HN i w Hi E)) as (H1 & H2).
    destruct (fw_close w (disk_of s)) as [w' k]. cbn [fst snd] in *. apply HS; [exact Hi|exact H1|].
    intros w0 [= <-]. exact H2.
  - destruct (writers s i) as [w|] eqn:E; [|exact H0]. cbn [snd]. apply HS; [exact HK| |discriminate].
    apply destroy_unmoved. now apply (HN i).
  - destruct (fr_open q (disk_of s)) as [r|?| |?]; try exact H0. destruct (r_read v c d r n (globals_of s)) as [[o r'] g].
    cbn [snd]. split; [apply unmoved_refl|]. auto.
  - pose proof (file_step_unmoved y (disk_of s) (globals_of s) p HP) as H. destruct (file_run1 y _) as [k g]. cbn [fst snd] in *.
    split; [exact H|]. auto.
Qed.
(** The state of the program while writer [h] is filling [p]: [wi] is the string writer
    that is asked the same. *)
Definition filling (h : Z) (d : device) (p : bytes) (wi : writer) (s : world) : Prop :=
  can_write (disk_of s) p = true /\ no_other h p s /\
  exists w n, writers s h = Some w /\ fw_path w = p /\ fw_dev w = d /\ w_shadows d (fw_w w) wi /\
    fw_open w = negb (w_closed wi) /\ n <= takes d /\ (w_closed wi = true -> n = takes d) /\
    file_at (disk_of s) p = Some (ztake n (w_str wi)).
Lemma filling_step v c x s h d p wi : spares p x -> keeps h x -> filling h d p wi s ->
  let (os, wi') := history v c wi (ops_of h [x]) in
  answers h [x] [fst (zip_run1 v c x s)] = os /\ filling h d p wi' (snd (zip_run1 v c x s)).
Proof.
  intros HP HK (HC & HN & w & n & HW & Hp & Hd & HS & HO & Hn & Hcl & HF).
  destruct (ops_of h [x]) as [|o l] eqn:EO.
  { cbn [history]. split.
    - destruct x as [i d0 q m e|i n0 t|i|i|d0 q n0|y]; cbn [ops_of answers] in *; try reflexivity;
        destruct (i =? h); try reflexivity; discriminate.
    - destruct (other_step v c x s h p HP HK HN EO) as ((H1 & H2) & H3 & H4). split; [congruence|]. split; [exact H4|].
      exists w, n. rewrite H3, H2. repeat (split; [assumption|]). assumption. }
  destruct x as [i d0 q m e|i n0 t|i|i|d0 q n0|y]; cbn [ops_of] in EO; try discriminate;
    destruct (i =? h) eqn:Ei; try discriminate; injection EO as <- <-; apply Z.eqb_eq in Ei; subst i;
    cbn [history call answers zip_run1]; rewrite Z.eqb_refl, HW.
  - pose proof (shadow_write v c d (fw_w w) wi n0 t HS) as HX. unfold fw_write. rewrite Hd.
    destruct (w_write v c wi n0 t) as [wi'|er| |u] eqn:EW.
    2-4: rewrite HX; cbn [fst snd]; split; [reflexivity|]; split; [exact HC|]; split.
    2,4,6: intros j w0 Hj; cbn [set_writer writers]; destruct (j =? h) eqn:Ej; [lia|]; now apply HN.
    2-4: exists w, n; cbn [set_writer writers disk_of]; rewrite Z.eqb_refl; repeat (split; [assumption || reflexivity|]); assumption.
    destruct HX as (w' & -> & HS'). cbn [fst snd]. split; [reflexivity|].
    assert (w_closed wi' = false /\ w_closed wi = false) as [HC' HCi].
    { clear - EW. unfold w_write, w_write_on in EW. destruct (w_closed wi); [discriminate|].
      destruct (save v t (w_endian wi)); try discriminate. cbn [obind] in EW. fold w_write_file in EW.
      apply w_write_file_grows in EW. tauto. }
    rewrite HCi in HO. cbn [negb] in HO. rewrite HO. split.
    { exact HC. }
    split. { intros j w0 Hj. cbn [set_writer writers]. destruct (j =? h) eqn:Ej; [lia|]. now apply HN. }
    set (fw := mk_file_writer (fw_path w) (fw_open w) d w').
    exists fw, (Z.min (takes d) (flushed d (len (w_str w')))). unfold fw. cbn [set_writer writers disk_of]. rewrite Z.eqb_refl, HO.
    split; [reflexivity|]. split; [exact Hp|]. split; [reflexivity|]. split; [exact HS'|]. split; [now rewrite HC'|].
    split; [lia|]. split; [congruence|]. rewrite Hp, put_same. f_equal. unfold on_disk. cbn [fw_w fw_dev].
    destruct HS' as (_ & _ & _ & HS' & _). apply (shadows_same d); [exact HS'|lia].
  - pose proof (shadow_close d (fw_w w) wi HS) as HX. unfold fw_close. destruct HS as (HS1 & HS2). rewrite HS1.
    destruct (w_closed wi) eqn:EC; cbn [fst snd].
    + split; [reflexivity|]. assert (w_close wi = wi) as -> by (unfold w_close, w_close_on; now rewrite EC).
      split; [exact HC|]. split. { intros j w0 Hj. cbn [set_writer writers]. destruct (j =? h) eqn:Ej; [lia|]. now apply HN. }
      exists w, n. cbn [set_writer writers disk_of]. rewrite Z.eqb_refl. rewrite EC. 
      split; [reflexivity|]. split; [exact Hp|]. split; [exact Hd|]. split; [split; [congruence|exact HS2]|]. auto.
    + split; [reflexivity|]. rewrite Hd. rewrite HO. cbn [negb].
      split; [exact HC|]. split. { intros j w0 Hj. cbn [set_writer writers]. destruct (j =? h) eqn:Ej; [lia|]. now apply HN. }
      assert (w_closed (w_close wi) = true) as HT by (unfold w_close, w_close_on; now rewrite EC).
      set (fw := mk_file_writer (fw_path w) false d (w_close_on (dwrite d) (fw_w w))).
      exists fw, (takes d). unfold fw. cbn [set_writer writers disk_of]. rewrite Z.eqb_refl.
      split; [reflexivity|]. split; [exact Hp|]. split; [reflexivity|]. split; [exact HX|]. split; [now rewrite HT|].
      split; [lia|]. split; [reflexivity|]. rewrite Hp, put_same. f_equal.
      destruct HX as (_ & _ & _ & HX & _). unfold w_str. apply (shadows_same d); [exact HX|lia].
Qed.
Lemma run_app v c a : forall b s, zip_run v c (a ++ b) s =
  (fst (zip_run v c a s) ++ fst (zip_run v c b (snd (zip_run v c a s))), snd (zip_run v c b (snd (zip_run v c a s)))).
Proof.
  induction a as [|x a IH]; intros b s; cbn [app zip_run fst snd]; [now destruct (zip_run v c b s)|].
  destruct (zip_run1 v c x s) as [o s1]. rewrite IH. destruct (zip_run v c a s1). reflexivity.
Qed.
Lemma ops_cons h x l : ops_of h (x :: l) = ops_of h [x] ++ ops_of h l.
Proof. destruct x; cbn [ops_of app]; try reflexivity; destruct (_ =? h); reflexivity. Qed.
Lemma answers_cons h x l o os : answers h (x :: l) (o :: os) = answers h [x] [o] ++ answers h l os.
Proof. destruct x; cbn [answers app]; try reflexivity; destruct (_ =? h); reflexivity. Qed.
Lemma filling_run v c h d p l : forall wi s, Forall (spares p) l -> Forall (keeps h) l -> filling h d p wi s ->
  let (os, wi') := history v c wi (ops_of h l) in
  answers h l (fst (zip_run v c l s)) = os /\ filling h d p wi' (snd (zip_run v c l s)).
Proof.
  induction l as [|x l IH]; intros wi s HP HK HF; [now split|].
  inversion HP as [|? ? P1 P2]; inversion HK as [|? ? K1 K2]; subst.
  pose proof (filling_step v c x s h d p wi P1 K1 HF) as H1.
  rewrite ops_cons, history_app. cbn [zip_run].
  destruct (zip_run1 v c x s) as [o s1]. destruct (history v c wi (ops_of h [x])) as [os1 w1]. cbn [fst snd] in *.
  destruct H1 as [A1 F1]. pose proof (IH w1 s1 P2 K2 F1) as H2.
  destruct (history v c w1 (ops_of h l)) as [os2 w2]. destruct (zip_run v c l s1) as [os s2]. cbn [fst snd] in *.
  rewrite answers_cons. destruct H2 as [A2 F2]. split; [congruence|exact F2].
Qed.
Lemma filling_new v c s h d p m e : can_write (disk_of s) p = true -> no_other h p s ->
  filling h d p (new_writer m e) (snd (zip_run1 v c (ZNew h d p m e) s)).
Proof.
  intros HC HN. cbn [zip_run1]. set (k := match writers s h with Some w => fw_destroy w (disk_of s) | None => disk_of s end).
  assert (can_write k = can_write (disk_of s)) as Hk.
  { unfold k. destruct (writers s h) as [w|]; [|reflexivity]. unfold fw_destroy, fw_close.
    destruct (w_closed (fw_w w)); [reflexivity|]. cbn [snd]. destruct (fw_open w); reflexivity. }
  unfold fw_new. rewrite Hk, HC. cbn [snd]. split; [cbn; now rewrite Hk|]. split.
  { intros j w0 Hj. cbn [set_writer writers]. destruct (j =? h) eqn:Ej; [lia|]. now apply HN. }
  eexists. exists (Z.min 0 (takes d)). cbn [set_writer writers disk_of]. rewrite Z.eqb_refl. split; [reflexivity|].
  cbn [fw_path fw_dev fw_w fw_open]. split; [reflexivity|]. split; [reflexivity|].
  split. { repeat split. cbn [new_writer new_file_writer w_out]. now left. }
  split; [reflexivity|]. split; [lia|]. split; [discriminate|]. apply put_same.
Qed.

(** *** C63.  A file writer on a path that opens, at any moment of any program, however
    much of the file the disk takes and whenever the stream finds out: its calls return
    what an npzstringwriter's return, is_open() tells whether it was closed, and the file
    holds the beginning of that string; all of it up to the disk's limit once closed. *)
Theorem C63_file_follows_the_string_writer : forall v c s h d p m e during,
  can_write (disk_of s) p = true -> no_other h p s ->
  Forall (spares p) during -> Forall (keeps h) during ->
  let (returned, s') := zip_run v c (ZNew h d p m e :: during) s in
  let (ideal, w) := history v c (new_writer m e) (ops_of h during) in
  answers h (ZNew h d p m e :: during) returned = ideal /\
  (exists fw, writers s' h = Some fw /\ fw_is_open fw = negb (w_closed w)) /\
  exists n, file_at (disk_of s') p = Some (ztake n (w_str w)) /\ n <= takes d /\
    (w_closed w = true -> n = takes d).
Proof.
  intros v c s h d p m e during HC HN HP HK. cbn [zip_run].
  pose proof (filling_new v c s h d p m e HC HN) as H0. destruct (zip_run1 v c (ZNew h d p m e) s) as [o s1] eqn:E1. cbn [snd] in H0.
  pose proof (filling_run v c h d p during (new_writer m e) s1 HP HK H0) as H.
  destruct (history v c (new_writer m e) (ops_of h during)) as [os w]. destruct (zip_run v c during s1) as [os2 s2].
  cbn [fst snd] in H. destruct H as [H1 (_ & _ & fw & n & HW & _ & _ & _ & HO & Hn & Hcl & HF)].
  split; [exact H1|]. split; [exists fw; auto|]. exists n. auto.
Qed.
Print Assumptions C63_file_follows_the_string_writer.

(** What the end record starts with. *)
Definition end_mark : bytes := [80; 75; 5; 6].
(** [a] has that mark nowhere but where an end record has it. *)
Definition marked_once (a : bytes) : Prop := forall pre post, a = pre ++ end_mark ++ post -> len post = 18.
Lemma shorter_not_opened a n r : marked_once a -> n < len a -> ~ opened (ztake n a) r.
Proof.
  intros HM Hn Hop. destruct (C45_end_signature_needed _ _ Hop) as (pre & f & HA & HL).
  assert (a = pre ++ end_mark ++ (f ++ zdrop n a)) as H.
  { rewrite <- (ztake_zdrop _ n a) at 1. rewrite HA. unfold end_mark. rewrite <- !app_assoc. reflexivity. }
  apply HM in H. rewrite len_app, HL in H. assert (0 <= n) as Hn0.
  { destruct (Z.lt_ge_cases n 0); [|assumption]. rewrite ztake_0 in HA by lia. destruct pre; discriminate. }
  rewrite len_zdrop in H. lia.
Qed.
Lemma closed_in v c ops : forall w, w_closed (snd (history v c w ops)) = w_closed w || existsb (fun o => match o with Close => true | _ => false end) ops.
Proof.
  induction ops as [|o ops IH]; intros w; cbn [history existsb snd]; [now rewrite orb_false_r|].
  destruct (call v c w o) as [x w1] eqn:E. specialize (IH w1). destruct (history v c w1 ops) as [xs w2]. cbn [snd] in *. rewrite IH.
  destruct o as [n t|]; cbn [call] in E.
  - assert (w_closed w1 = w_closed w) as ->; [|reflexivity].
    destruct (w_write v c w n t) as [w'|?| |?] eqn:EW; injection E as _ <-; try reflexivity.
    unfold w_write, w_write_on in EW. destruct (w_closed w) eqn:EC; [discriminate|].
    destruct (save v t (w_endian w)); try discriminate. cbn [obind] in EW. fold w_write_file in EW.
    apply w_write_file_grows in EW. tauto.
  - injection E as _ <-. assert (w_closed (w_close w) = true) as ->.
    { unfold w_close, w_close_on. destruct (w_closed w) eqn:EC; [exact EC|reflexivity]. }
    cbn. now rewrite orb_true_r.
Qed.
Lemma ok_stays v c ops : forall w, o_ok (w_out (snd (history v c w ops))) = o_ok (w_out w).
Proof.
  induction ops as [|o ops IH]; intros w; cbn [history snd]; [reflexivity|].
  destruct (call v c w o) as [x w1] eqn:E. specialize (IH w1). destruct (history v c w1 ops) as [xs w2]. cbn [snd] in *. rewrite IH.
  destruct o as [n t|]; cbn [call] in E.
  - destruct (w_write v c w n t) as [w'|?| |?] eqn:EW; injection E as _ <-; try reflexivity.
    unfold w_write, w_write_on in EW. destruct (w_closed w) eqn:EC; [discriminate|].
    destruct (save v t (w_endian w)); try discriminate. cbn [obind] in EW. fold w_write_file in EW.
    apply w_write_file_grows in EW. tauto.
  - injection E as _ <-. unfold w_close, w_close_on. destruct (w_closed w) eqn:EC; [reflexivity|]. cbn [w_out].
    unfold close_archive_on. now rewrite !owrite_ok.
Qed.
Lemma opened_file p k r : fr_open p k = Ok r -> exists a, file_at k p = Some a /\ opened a r.
Proof.
  unfold fr_open. destruct (file_at k p) as [a|] eqn:E; [|discriminate]. intros H. exists a. split; [reflexivity|]. now right.
Qed.
(** *** C63.  An archive that was never closed, or that the disk did not take whole, is
    not opened by any later reader, unless the data written happens to hold the mark of
    an end record (C45_crafted_tensor_opens). *)
Theorem C63_incomplete_archives_do_not_open : forall v c s h d p m e during,
  can_write (disk_of s) p = true -> no_other h p s ->
  Forall (spares p) during -> Forall (keeps h) during ->
  let s' := snd (zip_run v c (ZNew h d p m e :: during) s) in
  let w := snd (history v c (new_writer m e) (ops_of h during)) in
  marked_once (w_str (w_close w)) ->
  ~ In Close (ops_of h during) \/ takes d < len (w_str w) ->
  forall r, fr_open p (disk_of s') <> Ok r.
Proof.
  intros v c s h d p m e during HC HN HP HK s' w HM HX r HR.
  pose proof (C63_file_follows_the_string_writer v c s h d p m e during HC HN HP HK) as H.
  unfold s', w in *. clear s' w.
  pose proof (ok_stays v c (ops_of h during) (new_writer m e)) as Hok.
  pose proof (closed_in v c (ops_of h during) (new_writer m e)) as Hcl. cbn [new_writer w_closed] in Hcl.
  destruct (zip_run v c (ZNew h d p m e :: during) s) as [os s2]. destruct (history v c (new_writer m e) (ops_of h during)) as [id w].
  cbn [fst snd] in *. destruct H as (_ & _ & n & HF & Hn & Hc). apply opened_file in HR as (a & Ha & Hop).
  rewrite HF in Ha. injection Ha as <-.
  assert (o_ok (w_out w) = true) as HO by (rewrite Hok; reflexivity).
  assert (exists t, w_str (w_close w) = w_str w ++ t /\ (w_closed w = false -> 0 < len t)) as (t & Ht & Htl).
  { unfold w_close, w_close_on. destruct (w_closed w) eqn:EC; [exists []; rewrite app_nil_r; split; [reflexivity|discriminate]|].
    unfold w_str. cbn [w_out]. unfold close_archive_on, owrite. rewrite HO. cbn [o_ok o_bytes]. eexists. rewrite <- app_assoc. split; [reflexivity|].
    intros _. rewrite len_app, len_eocd. match goal with |- context [len ?x + _] => pose proof (len_nonneg _ x) end. lia. }
  set (L := w_str w) in *. pose proof (len_nonneg _ t) as Ht0.
  assert (exists n', n' < len (L ++ t) /\ ztake n L = ztake n' (L ++ t)) as (n' & H1 & H2).
  { destruct (w_closed w) eqn:EC.
    - assert (n = takes d) as -> by auto. destruct HX as [HX|HX].
      + exfalso. apply HX. symmetry in Hcl. cbn [orb] in Hcl. apply existsb_exists in Hcl as (x & Hin & Hx). now destruct x.
      + exists (takes d). rewrite len_app. split; [lia|]. now rewrite ztake_app_le by lia.
    - specialize (Htl eq_refl). exists (Z.min n (len L)). rewrite len_app. split; [lia|].
      rewrite ztake_app_le by lia. destruct (Z.le_gt_cases n (len L)); [now rewrite Z.min_l by lia|].
      rewrite Z.min_r by lia. rewrite !ztake_all by lia. reflexivity. }
  rewrite H2 in Hop. rewrite Ht in HM. exact (shorter_not_opened _ _ _ HM H1 Hop).
Qed.
Print Assumptions C63_incomplete_archives_do_not_open.

(** Nobody has [p] open. *)
Definition idle (p : bytes) (s : world) : Prop :=
  forall i w, writers s i = Some w -> fw_open w = true -> fw_path w <> p.
Lemma idle_step v c x s p : spares p x -> idle p s ->
  unmoved p (disk_of s) (disk_of (snd (zip_run1 v c x s))) /\ idle p (snd (zip_run1 v c x s)).
Proof.
  intros HP HI.
  set (h := match x with ZNew i _ _ _ _ | ZWrite i _ _ | ZClose i | ZDestroy i => i + 1 | _ => 0 end).
  assert (keeps h x /\ ops_of h [x] = []) as [HK HO].
  { unfold h. destruct x as [i d q m e|i n t|i|i|d q n|y]; cbn [keeps ops_of]; (split; [lia || exact I|]); try reflexivity;
      destruct (i =? i + 1) eqn:E; try reflexivity; lia. }
  destruct (other_step v c x s h p HP HK ltac:(intros i w _; apply HI) HO) as (H1 & H2 & H3). split; [exact H1|].
  intros i w HW. destruct (Z.eq_dec i h) as [->|Hi]; [|now apply (H3 i)]. rewrite H2 in HW. now apply (HI h).
Qed.
Lemma idle_run v c p l : forall s, Forall (spares p) l -> idle p s ->
  unmoved p (disk_of s) (disk_of (snd (zip_run v c l s))) /\ idle p (snd (zip_run v c l s)).
Proof.
  induction l as [|x l IH]; intros s HP HI; cbn [zip_run]; [split; [apply unmoved_refl|exact HI]|].
  inversion HP as [|? ? P1 P2]; subst. destruct (idle_step v c x s p P1 HI) as [H1 H2].
  destruct (zip_run1 v c x s) as [o s1]. cbn [snd] in *. destruct (IH s1 P2 H2) as [H3 H4].
  destruct (zip_run v c l s1) as [os s2]. cbn [snd] in *. split; [|exact H4]. eapply unmoved_trans; eauto.
Qed.
(** The end of an archive, by close() or by the destructor. *)
Lemma finish_step v c x s h d p wi : x = ZClose h \/ x = ZDestroy h -> filling h d p wi s ->
  let s' := snd (zip_run1 v c x s) in
  idle p s' /\ file_at (disk_of s') p = Some (ztake (takes d) (w_str (w_close wi))).
Proof.
  intros Hx HF.
  pose proof (filling_step v c (ZClose h) s h d p wi I I HF) as H. cbn [ops_of] in H. rewrite Z.eqb_refl in H.
  cbn [history call] in H. destruct H as [_ (HC & HN & w & n & HW & Hp & Hd & HS & HO & Hn & Hcl & HFi)].
  assert (w_closed (w_close wi) = true) as HT.
  { unfold w_close, w_close_on. destruct (w_closed wi) eqn:EC; [exact EC|reflexivity]. }
  rewrite HT in HO. rewrite (Hcl HT) in HFi.
  destruct Hx as [->| ->]; cbv zeta.
  - split; [|exact HFi]. intros i w0 Hw0 Ho. destruct (Z.eq_dec i h) as [->|Hi]; [|now apply (HN i w0 Hi Hw0)].
    rewrite HW in Hw0. injection Hw0 as <-. rewrite HO in Ho. discriminate.
  - destruct HF as (_ & HN0 & w0 & n0 & HW0 & _). cbn [zip_run1] in *. rewrite HW0 in *. cbn [snd]. split.
    + intros i w1. cbn [set_writer writers]. destruct (i =? h) eqn:E; [discriminate|]. apply (HN0 i w1). lia.
    + cbn [set_writer disk_of]. unfold fw_destroy. unfold fw_close in *. destruct (w_closed (fw_w w0)); exact HFi.
Qed.
Lemma history_writes v c items : forall w w', PropNpz.write_all v c w items = Ok w' ->
  snd (history v c w (map (fun p => Write (fst p) (snd p)) items)) = w'.
Proof.
  induction items as [|[n t] items IH]; intros w w' H; cbn [PropNpz.write_all map history fst snd call] in *; [now injection H|].
  destruct (w_write v c w n t) as [w1|?| |?]; try discriminate. cbn [obind] in H. specialize (IH w1 w' H).
  destruct (history v c w1 _). exact IH.
Qed.

(** *** C63.  Archives written to files are read back: construct, write [items], close (or
    let the destructor do it), with any other work of the program in between and after
    that does not open the same path for writing. *)
Theorem C63_archives_are_read_back : forall v c s h d p m e during finish after items a,
  can_write (disk_of s) p = true -> no_other h p s ->
  Forall (spares p) during -> Forall (keeps h) during ->
  ops_of h during = map (fun x => Write (fst x) (snd x)) items ->
  finish = ZClose h \/ finish = ZDestroy h ->
  Forall (spares p) after ->
  archive v c m e items a -> len a <= takes d ->
  let s' := snd (zip_run v c (ZNew h d p m e :: during ++ finish :: after) s) in
  file_at (disk_of s') p = Some a /\
  exists r, fr_open p (disk_of s') = Ok r /\ opened a r /\
  forall v2 r' n g, Forall (loadable v e v2) items -> Forall (unpacks c m v e v2) items ->
    reader_after v2 c r r' -> prior_parses g ->
    match resolve items n with
    | Some t => exists r'' g', r_read v2 c (t_dtype t) r' n g = (Ok t, r'', g') /\ prior_parses g' /\ reader_after v2 c r r''
    | None => forall d, r_read v2 c d r' n g = (Throw InvalidArgument, r', g)
    end.
Proof.
  intros v c s h d p m e during finish after items a HC HN HP HK HI Hfin HPa HA HL s'.
  assert (file_at (disk_of s') p = Some a) as HFile.
  { unfold s'. cbn [zip_run].
    pose proof (filling_new v c s h d p m e HC HN) as H0. destruct (zip_run1 v c (ZNew h d p m e) s) as [o s1]. cbn [snd] in H0.
    pose proof (filling_run v c h d p during (new_writer m e) s1 HP HK H0) as H. rewrite HI in H.
    destruct HA as (_ & _ & _ & _ & _ & w0 & w & Hw0 & HW & ->). apply fresh_new in Hw0. subst w0.
    pose proof (history_writes v c items _ w HW) as Hh.
    destruct (history v c (new_writer m e) _) as [os w']. cbn [snd] in Hh. subst w'. destruct H as [_ HF].
    rewrite run_app. cbn [zip_run]. destruct (zip_run v c during s1) as [os1 s2]. cbn [fst snd] in *.
    destruct (finish_step v c finish s2 h d p w Hfin HF) as [HIdle HFi]. destruct (zip_run1 v c finish s2) as [o3 s3]. cbn [snd] in *.
    destruct (idle_run v c p after s3 HPa HIdle) as [(_ & HU) _]. destruct (zip_run v c after s3) as [o4 s4]. cbn [snd] in *.
    rewrite HU, HFi. now rewrite ztake_all by exact HL. }
  split; [exact HFile|]. clear HC HN HP HK HI Hfin HPa. clearbody s'.
  destruct (archive_ps _ _ _ _ _ _ HA) as (ps & HLa & _ & HO & _ & (r & HR)).
  exists r. split; [unfold fr_open; now rewrite HFile|]. assert (opened a r) as Hop by now right. split; [exact Hop|].
  intros v2 r' n g HLd HU Haf Hg. destruct (HO r Hop) as [HS _].
  pose proof (archive_reads v v2 c m e items ps r r' n (proj1 HA)) as H.
  specialize (H ltac:(intros k t Hin; left; eapply Forall_forall in HLd; [|exact Hin]; destruct HLd as (_ & _ & _ & _ & HX); apply HX, file_of_save)).
  specialize (H HU HLa HS Haf). destruct (resolve items n) as [t|] eqn:E.
  - destruct H as (r'' & H). apply resolve_in in E as (k & Hin).
    eapply Forall_forall in HLd; [|exact Hin]. destruct HLd as (H1 & H2 & H3 & H4 & _). cbn [snd] in *.
    destruct HA as (_ & HSt & _). eapply Forall_forall in HSt; [|exact Hin]. destruct HSt as (Ht & _). cbn [snd] in *.
    destruct (C26_save_load_round_trip v v2 t e Ht H1 H2 H3 H4) as (file & HF & Hload).
    rewrite file_of_save in HF. injection HF as HF.
    destruct (Hload (open_str file) g [] eq_refl Hg ltac:(now rewrite app_nil_r)) as (g' & Hl & Hg').
    exists r'', g'.
    assert (r_read v2 c (t_dtype t) r' n g = (Ok t, r'', g')) as HRd by (unfold r_read; rewrite H, HF, Hl; reflexivity).
    split; [exact HRd|]. split; [exact Hg'|].
    replace r'' with (snd (fst (r_read v2 c (t_dtype t) r' n g))) by (now rewrite HRd). now constructor.
  - intros d0. unfold r_read. now rewrite H.
Qed.
Print Assumptions C63_archives_are_read_back.

(** ** Paths that do not open *)
Definition others (h : Z) (x : zip_step) : bool :=
  match x with ZWrite i _ _ | ZClose i => negb (i =? h) | _ => true end.
(** The two worlds differ in nothing but writer [h], which has no file. *)
Definition beside (h : Z) (wi : writer) (s s0 : world) : Prop :=
  disk_of s = disk_of s0 /\ globals_of s = globals_of s0 /\ (forall i, i <> h -> writers s i = writers s0 i) /\
  exists fw, writers s h = Some fw /\ fw_open fw = false /\ o_ok (w_out (fw_w fw)) = false /\
    w_closed (fw_w fw) = w_closed wi /\ w_method (fw_w fw) = w_method wi /\ w_endian (fw_w fw) = w_endian wi.
Lemma dark_write v c d w wi n t : w_closed w = w_closed wi -> w_method w = w_method wi -> w_endian w = w_endian wi ->
  o_ok (w_out w) = false ->
  match w_write v c wi n t with
  | Ok wi' => exists w', w_write_on (dwrite d) v c w n t = Ok w' /\ o_ok (w_out w') = false /\
      w_closed w' = w_closed wi' /\ w_method w' = w_method wi' /\ w_endian w' = w_endian wi'
  | Throw x => w_write_on (dwrite d) v c w n t = Throw x
  | AssertFail => w_write_on (dwrite d) v c w n t = AssertFail
  | Undef u => w_write_on (dwrite d) v c w n t = Undef u
  end.
Proof.
  intros HC HM HE HO. unfold w_write, w_write_on. rewrite HC, HE.
  destruct (w_closed wi) eqn:EC; [reflexivity|].
  destruct (save v t (w_endian wi)) as [b|x| |u]; try reflexivity. cbn [obind].
  unfold w_write_file_on. rewrite HC, EC. unfold write_file_on. rewrite HM.
  match goal with |- context [@obind bytes _ ?x _] => destruct x as [cb|?| |?]; try reflexivity end.
  cbn [obind fst snd]. eexists. split; [reflexivity|]. cbn [w_out w_closed w_method w_endian].
  rewrite (dwrite_stuck d (w_out w)) by exact HO. rewrite dwrite_stuck by exact HO. auto.
Qed.
Lemma beside_step v c x h wi s s0 : keeps h x -> beside h wi s s0 ->
  let (os, wi') := history v c wi (ops_of h [x]) in
  answers h [x] [fst (zip_run1 v c x s)] = os /\
  beside h wi' (snd (zip_run1 v c x s)) (if others h x then snd (zip_run1 v c x s0) else s0).
Proof.
  intros HK (HD & HG & HW & fw & Hh & HF & HO & HC & HM & HE).
  assert (forall i w k, i <> h -> beside h wi (set_writer s i w k) (set_writer s0 i w k)) as HS.
  { intros i w k Hi. split; [reflexivity|]. split; [exact HG|]. split.
    - intros j Hj. cbn [set_writer writers]. destruct (j =? i); [reflexivity|]. now apply HW.
    - exists fw. cbn [set_writer writers]. destruct (h =? i) eqn:E; [lia|]. auto 10. }
  assert (beside h wi s s0) as H0 by (split; [exact HD|split; [exact HG|split; [exact HW|exists fw; auto 10]]]).
  destruct x as [i d q m e|i n t|i|i|d q n|y]; cbn [keeps ops_of answers others] in *.
  - cbn [history zip_run1]. split; [reflexivity|]. rewrite HD, (HW i HK). destruct (fw_new d q m e _) as [w k]. cbn [snd]. now apply HS.
  - destruct (i =? h) eqn:Ei; cbn [negb].
    + apply Z.eqb_eq in Ei. subst i. cbn [history call zip_run1]. rewrite Hh.
      pose proof (dark_write v c (fw_dev fw) (fw_w fw) wi n t HC HM HE HO) as HX. unfold fw_write.
      destruct (w_write v c wi n t) as [wi'|er| |u].
      2-4: rewrite HX; cbn [fst snd]; (split; [reflexivity|]); (split; [exact HD|split; [exact HG|split]]).
      2,4,6: intros j Hj; cbn [set_writer writers]; destruct (j =? h) eqn:E; [lia|]; now apply HW.
      2-4: exists fw; cbn [set_writer writers]; rewrite Z.eqb_refl; auto 10.
      destruct HX as (w' & -> & H1 & H2 & H3 & H4). cbn [fst snd]. split; [reflexivity|]. rewrite HF.
      split; [exact HD|]. split; [exact HG|]. split.
      { intros j Hj; cbn [set_writer writers]; destruct (j =? h) eqn:E; [lia|]; now apply HW. }
      eexists. cbn [set_writer writers]. rewrite Z.eqb_refl. split; [reflexivity|]. cbn [fw_open fw_w]. auto 10.
    + cbn [history zip_run1]. split; [reflexivity|]. assert (i <> h) as Hi by lia. rewrite (HW i Hi), HD.
      destruct (writers s0 i) as [w|]; [|exact H0]. destruct (fw_write v c w n t (disk_of s0)) as [[o w'] k]. cbn [snd]. now apply HS.
  - destruct (i =? h) eqn:Ei; cbn [negb].
    + apply Z.eqb_eq in Ei. subst i. cbn [history call zip_run1]. rewrite Hh. unfold fw_close. rewrite HC.
      destruct (w_closed wi) eqn:EC; cbn [fst snd]; (split; [reflexivity|]).
      * assert (w_close wi = wi) as -> by (unfold w_close, w_close_on; now rewrite EC).
        split; [exact HD|]. split; [exact HG|]. split.
        { intros j Hj; cbn [set_writer writers]; destruct (j =? h) eqn:E; [lia|]; now apply HW. }
        exists fw. cbn [set_writer writers]. rewrite Z.eqb_refl, EC. auto 10.
      * rewrite HF. split; [exact HD|]. split; [exact HG|]. split.
        { intros j Hj; cbn [set_writer writers]; destruct (j =? h) eqn:E; [lia|]; now apply HW. }
        eexists. cbn [set_writer writers]. rewrite Z.eqb_refl. split; [reflexivity|]. cbn [fw_open fw_w].
        unfold w_close, w_close_on. rewrite HC, EC. cbn [w_out w_closed w_method w_endian]. split; [reflexivity|].
        unfold close_archive_on. rewrite !dwrite_stuck; auto. rewrite dwrite_stuck; auto.
    + cbn [history zip_run1]. split; [reflexivity|]. assert (i <> h) as Hi by lia. rewrite (HW i Hi), HD.
      destruct (writers s0 i) as [w|]; [|exact H0]. destruct (fw_close w (disk_of s0)) as [w' k]. cbn [snd]. now apply HS.
  - cbn [history zip_run1]. split; [reflexivity|]. rewrite (HW i HK), HD.
    destruct (writers s0 i) as [w|]; [|exact H0]. cbn [snd]. now apply HS.
  - cbn [history zip_run1]. split; [reflexivity|]. rewrite HD, HG. destruct (fr_open q (disk_of s0)); try exact H0.
    destruct (r_read v c d _ n (globals_of s0)) as [[o r] g]. cbn [snd]. split; [reflexivity|]. split; [reflexivity|].
    split; [exact HW|]. exists fw. auto 10.
  - cbn [history zip_run1]. split; [reflexivity|]. rewrite HD, HG. destruct (file_run1 y (disk_of s0, globals_of s0)) as [k g]. cbn [snd].
    split; [reflexivity|]. split; [reflexivity|]. split; [exact HW|]. exists fw. auto 10.
Qed.
(** *** C63.  A writer on a path that does not open returns from every call like any other,
    and the disk is what it would be without it; only is_open() tells. *)
Theorem C63_unopenable_paths_are_silent : forall v c s h d p m e l,
  can_write (disk_of s) p = false -> writers s h = None -> Forall (keeps h) l ->
  let (returned, s') := zip_run v c (ZNew h d p m e :: l) s in
  let s0 := snd (zip_run v c (filter (others h) l) s) in
  answers h (ZNew h d p m e :: l) returned = fst (history v c (new_writer m e) (ops_of h l)) /\
  disk_of s' = disk_of s0 /\ globals_of s' = globals_of s0 /\
  exists fw, writers s' h = Some fw /\ fw_is_open fw = false.
Proof.
  intros v c s h d p m e l HC Hh HK.
  assert (forall l wi s s0, Forall (keeps h) l -> beside h wi s s0 ->
    answers h l (fst (zip_run v c l s)) = fst (history v c wi (ops_of h l)) /\
    beside h (snd (history v c wi (ops_of h l))) (snd (zip_run v c l s)) (snd (zip_run v c (filter (others h) l) s0))) as HR.
  { clear. induction l as [|x l IH]; intros wi s s0 HK HB; [now split|]. inversion HK as [|? ? K1 K2]; subst.
    pose proof (beside_step v c x h wi s s0 K1 HB) as H1. rewrite ops_cons, history_app. cbn [zip_run filter].
    destruct (history v c wi (ops_of h [x])) as [os1 w1]. cbn [fst snd]. destruct H1 as [A1 B1].
    destruct (zip_run1 v c x s) as [o s1]. cbn [fst snd] in *. destruct (IH w1 s1 _ K2 B1) as [A2 B2].
    destruct (zip_run v c l s1) as [os2 s2] eqn:E2. cbn [fst snd] in *. rewrite answers_cons, A1, A2. split; [reflexivity|].
    destruct (others h x); [|exact B2]. cbn [zip_run]. destruct (zip_run1 v c x s0) as [o0 s01]. cbn [snd] in *.
    destruct (zip_run v c (filter (others h) l) s01). exact B2. }
  cbn [zip_run zip_run1]. rewrite Hh. unfold fw_new. rewrite HC.
  set (s1 := set_writer s h _ _).
  destruct (HR l (new_writer m e) s1 s HK) as [A B].
  { unfold s1. split; [reflexivity|]. split; [reflexivity|]. split.
    - intros i Hi. cbn [set_writer writers]. destruct (i =? h) eqn:E; [lia|reflexivity].
    - eexists. cbn [set_writer writers]. rewrite Z.eqb_refl. split; [reflexivity|]. repeat split. }
  destruct (zip_run v c l s1) as [os s2]. cbn [fst snd answers] in *. split; [exact A|].
  destruct B as (B1 & B2 & _ & fw & B3 & B4 & _). split; [exact B1|]. split; [exact B2|]. exists fw. auto.
Qed.
Print Assumptions C63_unopenable_paths_are_silent.

(** ** Readers *)
Lemma dead_sig sg s : failb s = true -> assert_sig sg s = (Undef UninitRead, set_fail s).
Proof. intros F. unfold assert_sig, sread, good. rewrite F, andb_false_r. reflexivity. Qed.
(** *** C63.  A missing file is refused; a closed reader still lists and finds names, but
    reading one that is there compares bytes that were never read; and the two-argument
    read<T, TENSOR> of npzfilereader never returns a value. *)
Theorem C63_file_readers : forall v c k p,
  (file_at k p = None -> fr_open p k = Throw InvalidArgument) /\
  forall r r' name d g, fr_open p k = Ok r -> reader_after v c r r' ->
    r_keys (fr_close r') = r_keys r /\
    r_contains (fr_close r') name = r_contains r' name /\
    fst (fst (r_read v c d (fr_close r') name g)) =
      (if r_contains r name || r_contains r (name ++ str ".npy") then Undef UninitRead else Throw InvalidArgument) /\
    (forall t, fst (fst (r_read v c d r' name g)) = Ok t -> fst (fst (r_read2_file v c d r' name g)) = Undef NoReturn).
Proof.
  intros v c k p. split; [intros H; unfold fr_open; now rewrite H|].
  intros r r' name d g HO HA. destruct (after_facts v c r r' HA) as (E1 & _).
  assert (r_keys r' = r_keys r) as EK.
  { clear HO E1. induction HA as [|r' d' n' g' HA IH|r' n' g' HA IH]; [reflexivity|..].
    - rewrite r_read_reader. unfold r_read_file. now destruct (read_file v c (r_entries r') n' (r_in r')).
    - rewrite r_peek_reader. unfold r_read_file. now destruct (read_file v c (r_entries r') n' (r_in r')). }
  split; [exact EK|]. split; [reflexivity|]. split.
  - unfold r_read, r_read_file, fr_close. cbn [r_in r_entries r_keys]. unfold read_file, find_entry, r_contains. rewrite E1.
    destruct (efind (r_entries r) name) as [e|] eqn:EE; [cbn [orb]|destruct (efind (r_entries r) (name ++ str ".npy")) as [e|] eqn:EE2; [cbn [orb]|reflexivity]].
    all: unfold bind at 1; unfold sseek_abs; cbn [failb set_fail];
      unfold bind at 1; unfold read_local_header, bind at 1; rewrite dead_sig by reflexivity; reflexivity.
  - intros t H. unfold r_read2_file. destruct (r_read v c d r' name g) as [[o r2] g2]. cbn [fst] in H. now subst o.
Qed.
Print Assumptions C63_file_readers.

(** ** A program that meets the hypotheses: two archives being written at once, a reader
    and an NPY file in between, on a disk where one path cannot be opened; and the same
    with a disk that takes 300 bytes of the file. *)
Definition case_disk : disk := mk_disk (fun _ => None) (fun p => negb (beq p (str "locked.npz"))).
Definition case_world : world := mk_world case_disk (fun _ => None) (zrepeat 0 65536, DTYPE_MAP).
Definition case_device (n : Z) : device := mk_device n (fun k => 512 <? k) (fun k => k / 256 * 256).
Definition case_during : list zip_step :=
  [ZWrite 1 (str "a") case_tensor; ZNew 2 (case_device 5000) (str "y.npz") STORED LITTLE;
   ZWrite 1 (str "b.npy") case_tensor; ZWrite 2 (str "q") case_tensor;
   ZRead UNICODE_STRING (str "x.npz") (str "a"); ZFile (FSave case_env case_tensor BIG (str "z.npy"));
   ZWrite 1 (str "a.npy") case_tensor; ZClose 2; ZWrite 1 (str "a.npy.npy") case_tensor].
Definition case_after : list zip_step :=
  [ZDestroy 1; ZRead UNICODE_STRING (str "x.npz") (str "a"); ZRead UNICODE_STRING (str "none.npz") (str "a")].
Fixpoint marks (l : bytes) : list Z :=
  match l with
  | [] => []
  | _ :: t => if beq (ztake 4 l) end_mark then len l :: marks t else marks t
  end.
Lemma marks_all pre : forall post, In (4 + len post) (marks (pre ++ end_mark ++ post)).
Proof.
  induction pre as [|x pre IH]; intros post.
  - cbn [app end_mark marks]. match goal with |- In _ (if ?b then _ else _) => assert (b = true) as -> end.
    { cbn. destruct post; reflexivity. }
    left. rewrite !len_cons. lia.
  - cbn [app marks]. destruct (beq _ end_mark); [right|]; apply IH.
Qed.
Lemma marks_once a : marks a = [22] -> marked_once a.
Proof.
  intros H pre post ->. pose proof (marks_all pre post) as HI. rewrite H in HI. destruct HI as [HI|[]]. lia.
Qed.
Example C63_case :
  can_write (disk_of case_world) (str "x.npz") = true /\ can_write (disk_of case_world) (str "locked.npz") = false /\
  no_other 1 (str "x.npz") case_world /\
  Forall (spares (str "x.npz")) case_during /\ Forall (keeps 1) case_during /\ Forall (spares (str "x.npz")) case_after /\
  ops_of 1 case_during = map (fun x => Write (fst x) (snd x)) case_items /\
  (exists a, archive case_env (mk_codec Ok Ok) STORED BIG case_items a /\ marked_once a /\ len a = 950) /\
  fst (zip_run case_env (mk_codec Ok Ok) (ZNew 1 (case_device 5000) (str "x.npz") STORED BIG :: case_during ++ ZClose 1 :: case_after) case_world)
    = [Ok tt; Ok tt; Ok tt; Ok tt; Ok tt; Throw RuntimeError; Ok tt; Ok tt; Ok tt; Ok tt; Ok tt; Ok tt; Ok tt; Throw InvalidArgument] /\
  (let s := snd (zip_run case_env (mk_codec Ok Ok) (ZNew 1 (case_device 5000) (str "x.npz") STORED BIG :: case_during) case_world) in
   option_map (@len Z) (file_at (disk_of s) (str "x.npz")) = Some 512) /\
  (let os := fst (zip_run case_env (mk_codec Ok Ok) (ZNew 1 (case_device 300) (str "x.npz") STORED BIG :: case_during ++ [ZClose 1]) case_world) in
   let s := snd (zip_run case_env (mk_codec Ok Ok) (ZNew 1 (case_device 300) (str "x.npz") STORED BIG :: case_during ++ [ZClose 1]) case_world) in
   answers 1 (ZNew 1 (case_device 300) (str "x.npz") STORED BIG :: case_during ++ [ZClose 1]) os = [Ok tt; Ok tt; Ok tt; Ok tt; Ok tt] /\
   option_map (@len Z) (file_at (disk_of s) (str "x.npz")) = Some 300).
Proof.
  split; [reflexivity|]. split; [reflexivity|]. split; [intros i w _ H; discriminate|].
  split. { repeat (apply Forall_cons; [first [exact I|discriminate]|]). apply Forall_nil. }
  split. { repeat (apply Forall_cons; [first [exact I|discriminate]|]). apply Forall_nil. }
  split. { repeat (apply Forall_cons; [first [exact I|discriminate]|]). apply Forall_nil. }
  split; [reflexivity|]. split.
  { destruct (PropNpz.write_all case_env (mk_codec Ok Ok) (new_writer STORED BIG) case_items) as [w| | |] eqn:E;
      try (vm_compute in E; discriminate).
    exists (w_str (w_close w)). split.
    - split; [now left|]. split; [apply C35_case|]. split. { apply Forall_forall. intros p _ b _. now right. }
      split; [vm_compute; discriminate|]. split; [vm_compute in E; injection E as <-; vm_compute; reflexivity|].
      exists (new_writer STORED BIG), w. split; [now left|]. auto.
    - vm_compute in E. injection E as <-. split; [apply marks_once; vm_compute; reflexivity|vm_compute; reflexivity]. }
  split; [vm_compute; reflexivity|]. split; [vm_compute; reflexivity|]. split; vm_compute; reflexivity.
Qed.
